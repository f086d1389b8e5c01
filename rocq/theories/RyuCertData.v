(** Adjacent fractions used as certificates in RyuCert (data only; nothing here is trusted: each
    entry (m1, n1, (m2, n2)) is checked by [pow_check] / [inv_check] in RyuCertOk). *)
From Coq Require Import ZArith List.
Import ListNotations.
Open Scope Z_scope.

Definition dpow_certs : list (Z * Z * (Z * Z)) :=
  [ (0, 0, (0, 0));
    (0, 0, (0, 0));
    (0, 0, (0, 0));
    (0, 0, (0, 0));
    (0, 0, (0, 0));
    (0, 0, (0, 0));
    (0, 0, (0, 0));
    (0, 0, (0, 0));
    (0, 0, (0, 0));
    (0, 0, (0, 0));
    (0, 0, (0, 0));
    (0, 0, (0, 0));
    (0, 0, (0, 0));
    (0, 0, (0, 0));
    (0, 0, (0, 0));
    (0, 0, (0, 0));
    (0, 0, (0, 0));
    (0, 0, (0, 0));
    (0, 0, (0, 0));
    (0, 0, (0, 0));
    (0, 0, (0, 0));
    (0, 0, (0, 0));
    (0, 0, (0, 0));
    (0, 0, (0, 0));
    (0, 0, (0, 0));
    (0, 0, (0, 0));
    (0, 0, (0, 0));
    (0, 0, (0, 0));
    (0, 0, (0, 0));
    (0, 0, (0, 0));
    (0, 0, (0, 0));
    (0, 0, (0, 0));
    (0, 0, (0, 0));
    (0, 0, (0, 0));
    (0, 0, (0, 0));
    (0, 0, (0, 0));
    (0, 0, (0, 0));
    (0, 0, (0, 0));
    (0, 0, (0, 0));
    (0, 0, (0, 0));
    (0, 0, (0, 0));
    (0, 0, (0, 0));
    (0, 0, (0, 0));
    (0, 0, (0, 0));
    (0, 0, (0, 0));
    (0, 0, (0, 0));
    (0, 0, (0, 0));
    (0, 0, (0, 0));
    (0, 0, (0, 0));
    (0, 0, (0, 0));
    (0, 0, (0, 0));
    (0, 0, (0, 0));
    (0, 0, (0, 0));
    (0, 0, (0, 0));
    (0, 0, (0, 0));
    (0, 0, (0, 0));
    (0, 0, (0, 0));
    (0, 0, (0, 0));
    (0, 0, (0, 0));
    (0, 0, (0, 0));
    (0, 0, (0, 0));
    (0, 0, (0, 0));
    (0, 0, (0, 0));
    (0, 0, (0, 0));
    (0, 0, (0, 0));
    (0, 0, (0, 0));
    (0, 0, (0, 0));
    (0, 0, (0, 0));
    (0, 0, (0, 0));
    (0, 0, (0, 0));
    (0, 0, (0, 0));
    (0, 0, (0, 0));
    (0, 0, (0, 0));
    (0, 0, (0, 0));
    (0, 0, (0, 0));
    (0, 0, (0, 0));
    (0, 0, (0, 0));
    (0, 0, (0, 0));
    (0, 0, (0, 0));
    (0, 0, (0, 0));
    (0, 0, (0, 0));
    (0, 0, (0, 0));
    (0, 0, (0, 0));
    (0, 0, (0, 0));
    (0, 0, (0, 0));
    (0, 0, (0, 0));
    (0, 0, (0, 0));
    (0, 0, (0, 0));
    (0, 0, (0, 0));
    (0, 0, (0, 0));
    (0, 0, (0, 0));
    (0, 0, (0, 0));
    (0, 0, (0, 0));
    (0, 0, (0, 0));
    (0, 0, (0, 0));
    (0, 0, (0, 0));
    (0, 0, (0, 0));
    (0, 0, (0, 0));
    (0, 0, (0, 0));
    (0, 0, (0, 0));
    (0, 0, (0, 0));
    (0, 0, (0, 0));
    (0, 0, (0, 0));
    (0, 0, (0, 0));
    (0, 0, (0, 0));
    (0, 0, (0, 0));
    (0, 0, (0, 0));
    (0, 0, (0, 0));
    (0, 0, (0, 0));
    (0, 0, (0, 0));
    (0, 0, (0, 0));
    (0, 0, (0, 0));
    (0, 0, (0, 0));
    (0, 0, (0, 0));
    (0, 0, (0, 0));
    (0, 0, (0, 0));
    (0, 0, (0, 0));
    (0, 0, (0, 0));
    (0, 0, (0, 0));
    (0, 0, (0, 0));
    (0, 0, (0, 0));
    (0, 0, (0, 0));
    (0, 0, (0, 0));
    (0, 0, (0, 0));
    (0, 0, (0, 0));
    (0, 0, (0, 0));
    (0, 0, (0, 0));
    (0, 0, (0, 0));
    (0, 0, (0, 0));
    (0, 0, (0, 0));
    (0, 0, (0, 0));
    (0, 0, (0, 0));
    (0, 0, (0, 0));
    (0, 0, (0, 0));
    (0, 0, (0, 0));
    (0, 0, (0, 0));
    (0, 0, (0, 0));
    (0, 0, (0, 0));
    (0, 0, (0, 0));
    (0, 0, (0, 0));
    (0, 0, (0, 0));
    (0, 0, (0, 0));
    (0, 0, (0, 0));
    (0, 0, (0, 0));
    (0, 0, (0, 0));
    (0, 0, (0, 0));
    (0, 0, (0, 0));
    (0, 0, (0, 0));
    (0, 0, (0, 0));
    (0, 0, (0, 0));
    (0, 0, (0, 0));
    (0, 0, (0, 0));
    (0, 0, (0, 0));
    (0, 0, (0, 0));
    (0, 0, (0, 0));
    (0, 0, (0, 0));
    (0, 0, (0, 0));
    (0, 0, (0, 0));
    (0, 0, (0, 0));
    (0, 0, (0, 0));
    (0, 0, (0, 0));
    (0, 0, (0, 0));
    (0, 0, (0, 0));
    (0, 0, (0, 0));
    (0, 0, (0, 0));
    (0, 0, (0, 0));
    (0, 0, (0, 0));
    (0, 0, (0, 0));
    (0, 0, (0, 0));
    (0, 0, (0, 0));
    (0, 0, (0, 0));
    (0, 0, (0, 0));
    (3872776833515583, 323469414083845270, (32550528021574292, 2718746955966590727));
    (3872776833515583, 161734707041922635, (34118841375023920, 1424869299631209647));
    (7745553667031166, 161734707041922635, (30246064541508337, 631567296294643506));
    (15491107334062332, 161734707041922635, (30246064541508337, 315783648147321753));
    (18442098775551533, 962722476315012293, (21393090217040734, 1116771417420411411));
    (33933206109613865, 885698005762312734, (2950991441489201, 77024470552699559));
    (33933206109613865, 442849002881156367, (5901982882978402, 77024470552699559));
    (6786641221922773, 442849002881156367, (33048547770669494, 2156518364288123263));
    (13573282443845546, 442849002881156367, (26261906548746721, 856834680703483448));
    (27146564887691092, 442849002881156367, (26261906548746721, 428417340351741724));
    (16111007264825781, 1314115346114054458, (21186456906786251, 1728101023936381539));
    (16111007264825781, 657057673057027229, (26261906548746721, 1071043350879354310));
    (32222014529651562, 657057673057027229, (26261906548746721, 535521675439677155));
    (5960107980904841, 60767998808675037, (34643489154778919, 353217679013652044));
    (14080827408041593, 717825671865702266, (22201546835178345, 1131811349688029347));
    (14080827408041593, 358912835932851133, (30322266262315097, 772898513755178214));
    (28161654816083186, 358912835932851133, (30322266262315097, 386449256877589107));
    (22961446142112931, 1463187764676142506, (17761237468142676, 1131811349688029347));
    (22961446142112931, 731593882338071253, (35522474936285352, 1131811349688029347));
    (33361863490053441, 531485148663092206, (12561028794172421, 200108733674979047));
    (25041529611701033, 1994672913339234712, (20881362672524829, 1663296498351121553));
    (25041529611701033, 997336456669617356, (16721195733348625, 665960041681504197));
    (25041529611701033, 498668228334808678, (33442391466697250, 665960041681504197));
    (31730007905040483, 3159301183355547587, (6688478293339450, 665960041681504197));
    (25041529611701033, 1246670570837021695, (13376956586678900, 665960041681504197));
    (11664573025022133, 290355264577758749, (26753913173357800, 665960041681504197));
    (23329146050044266, 290355264577758749, (15089340148335667, 187802388551872724));
    (27716920929036813, 1724828223966653168, (10701565269343120, 665960041681504197));
    (27716920929036813, 862414111983326584, (21403130538686240, 665960041681504197));
    (27716920929036813, 431207055991663292, (15089340148335667, 234752985689840905));
    (27716920929036813, 2156035279958316460, (8561252215474496, 665960041681504197));
    (27716920929036813, 1078017639979158230, (17122504430948992, 665960041681504197));
    (27716920929036813, 539008819989579115, (34245008861897984, 665960041681504197));
    (27716920929036813, 2695044099947895575, (17935770143994322, 1743977681660662427));
    (9781150785042491, 475533209143616574, (35871540287988644, 1743977681660662427));
    (9781150785042491, 237766604571808287, (32618477435807324, 792911263373429279));
    (19562301570084982, 237766604571808287, (22837326650764833, 277572329400810496));
    (28042227214254945, 1704171956831660218, (8479925644169963, 515338933972618783));
    (28042227214254945, 852085978415830109, (16959851288339926, 515338933972618783));
    (11082375925915019, 168373522221605663, (33919702576679852, 515338933972618783));
    (11216890885701978, 852085978415830109, (33785187616892893, 2566476302555292121));
    (22433781771403956, 852085978415830109, (22568296731190915, 857195162069731006));
    (22299266811616997, 423488397380964606, (22568296731190915, 428597581034865503));
    (35840244850331546, 3403234730009419539, (4513659346238183, 428597581034865503));
    (31326585504093363, 1487318574487277018, (9027318692476366, 428597581034865503));
    (31326585504093363, 743659287243638509, (18054637384952732, 428597581034865503));
    (13271948119140631, 157530853104386503, (22837326650764833, 271066727930479000));
    (9876244577809219, 586128434139252006, (26233030192096245, 1556859471035075509));
    (9876244577809219, 293064217069626003, (32713571228574052, 970731036895823503));
    (19752489155618438, 293064217069626003, (22837326650764833, 338833409913098750));
    (19752489155618438, 1465321085348130015, (20369456654647717, 1511090278191602762));
    (19135521656589159, 709775946252328634, (20369456654647717, 755545139095801381));
    (19135521656589159, 354887973126164317, (21603391652706275, 400657165969637064));
    (27776878317671669, 2575754197570095713, (32097556648212924, 2976411363539732777));
    (33950364982637063, 1574111282646003053, (4320678330541255, 200328582984818532));
    (33335303320944086, 772796950706728925, (4320678330541255, 100164291492409266));
    (32105179997558132, 372139784737091861, (4320678330541255, 50082145746204633));
    (35561722661991136, 2061027506670277837, (864135666108251, 50082145746204633));
    (34697586995882885, 1005472680462036602, (1728271332216502, 50082145746204633));
    (34697586995882885, 502736340231018301, (3456542664433004, 50082145746204633));
    (34591858714640609, 2506022170079203621, (3456542664433004, 250410728731023165));
    (31135316050207605, 1127805720674090228, (6913085328866008, 250410728731023165));
    (31135316050207605, 563902860337045114, (13826170657732016, 250410728731023165));
    (6227063210041521, 563902860337045114, (32507360287856579, 2943762224666251167));
    (6227063210041521, 281951430168522557, (33879404525505553, 1534005073823638382));
    (12454126420083042, 281951430168522557, (33879404525505553, 767002536911819191));
    (24908252840166084, 281951430168522557, (21425278105422511, 242525553371648317));
    (34174959029283803, 1934234134382783659, (9266706189117719, 524476983540170874));
    (31283093302096730, 885280167302441911, (9266706189117719, 262238491770085437));
    (22016387112979011, 311520837766178237, (18533412378235438, 262238491770085437));
    (15523324849537065, 1098236313076434548, (34056737227772503, 2409428771926861733));
    (15523324849537065, 549118156538217274, (21543499906933811, 762074302312209911));
    (15523324849537065, 274559078269108637, (27563674964330557, 487515224043101274));
    (3104664969907413, 274559078269108637, (33773004904145383, 2986694276753723644));
    (6209329939814826, 274559078269108637, (33773004904145383, 1493347138376861822));
    (12418659879629652, 274559078269108637, (33773004904145383, 746673569188430911));
    (24837319759259304, 274559078269108637, (21354345024515731, 236057245459661137));
    (24837319759259304, 1372795391345543185, (34075652716014311, 1883411715074312959));
    (31197973605008594, 862179067616773411, (9238332956755007, 255308161864384887));
    (21959640648253587, 303435452876194262, (18476665913510014, 255308161864384887));
    (11782594495054723, 814051776604964036, (30259260408564737, 2090592585926888471));
    (11782594495054723, 407025888302482018, (25170737331965305, 869514921019442417));
    (11782594495054723, 203512944151241009, (26776285673821164, 462489032716960399));
    (11782594495054723, 1017564720756205045, (33633483922895568, 2904644362531852507));
    (23565188990109446, 1017564720756205045, (21850889427840845, 943539820887823731));
    (1714299562268601, 37012449934190657, (35130281044338685, 758477571216870446));
    (3428599124537202, 37012449934190657, (35130281044338685, 379238785608435223));
    (10454655333404939, 564301035279388508, (27935366875677615, 1507840856167212239));
    (10454655333404939, 282150517639694254, (34961423084545352, 943539820887823731));
    (10454655333404939, 141075258819847127, (28104224835470948, 379238785608435223));
    (32802948833947031, 2213217150266447874, (22348293500542092, 1507840856167212239));
    (32802948833947031, 1106608575133223937, (11893638167137153, 401232281033988302));
    (29924983166482603, 504760153582241484, (11893638167137153, 200616140516994151));
    (15499907167006243, 1307224715650218088, (27393545334143396, 2310305418235188843));
    (15499907167006243, 653612357825109044, (23787276334274306, 1003080702584970755));
    (15499907167006243, 326806178912554522, (32074645501542369, 676274523672416233));
    (15499907167006243, 163403089456277261, (33149476669072252, 349468344759861711));
    (15499907167006243, 817015447281386305, (25229783934221942, 1329886881497525277));
    (30999814334012486, 817015447281386305, (9729876767215699, 256435717108069486));
    (32809998366377875, 432361871619282076, (9729876767215699, 128217858554034743));
    (22853876113766849, 1505813036008737867, (16291876440491274, 1073451164389455791));
    (6561999673275575, 216180935809641038, (32583752880982548, 1073451164389455791));
    (6561999673275575, 108090467904820519, (32357507395587221, 532998824865353196));
    (1312399934655115, 108090467904820519, (34982307264897451, 2881175060136407018));
    (2624799869310230, 108090467904820519, (34982307264897451, 1440587530068203509));
    (5249599738620460, 108090467904820519, (32357507395587221, 666248531081691495));
    (10499199477240920, 108090467904820519, (27107907656966761, 279079031588435488));
    (2099839895448184, 108090467904820519, (35507267238759497, 1827757029561459516));
    (4199679790896368, 108090467904820519, (35507267238759497, 913878514780729758));
    (8399359581792736, 108090467904820519, (35507267238759497, 456939257390364879));
    (32681497975447818, 2102873661733755467, (12141069196827541, 781210661104826436));
    (28939788360413013, 931057670076515813, (12141069196827541, 390605330552413218));
    (33597438327170944, 540452339524102595, (12141069196827541, 195302665276206609));
    (21288770701627238, 1712268331181342249, (33429839898454779, 2688781657562375294));
    (9147701504799697, 367877502400154602, (33429839898454779, 1344390828781187647));
    (9147701504799697, 183938751200077301, (30268873777710770, 608635823980878443));
    (18295403009599394, 183938751200077301, (21121172272911073, 212348536390400571));
    (15201476260341851, 764164789990632474, (27309025771426159, 1372800613971510917));
    (15201476260341851, 382082394995316237, (24215099022168616, 608635823980878443));
    (30402952520683702, 382082394995316237, (9013622761826765, 113276714492781103));
    (30402952520683702, 1910411974976581185, (32205677073049055, 2023688689469362288));
    (28600227968318349, 898567630241900041, (32205677073049055, 1011844344734681144));
    (24994778863587643, 392645457874559469, (32205677073049055, 505922172367340572));
    (31435914278197454, 2469149461740137917, (6441135414609811, 505922172367340572));
    (30666151483345853, 1204344030821786487, (6441135414609811, 252961086183670286));
    (35567761308252462, 698421858454445915, (6441135414609811, 126480543091835143));
    (30301639754245812, 2975071634107478489, (6441135414609811, 632402715459175715));
    (23860504339636001, 1171334459324151387, (12882270829219622, 632402715459175715));
    (10978233510416379, 269465871932487836, (25764541658439244, 632402715459175715));
    (10978233510416379, 134732935966243918, (29572616296045730, 362936843526687879));
    (22807280028834671, 1399538366884595348, (28721803288043817, 1762475210411283227));
    (22807280028834671, 699769183442297674, (34636326547252963, 1062706026968985553));
    (22807280028834671, 349884591721148837, (23658093036836584, 362936843526687879));
    (22807280028834671, 1749422958605744185, (32100354641968922, 2462244393853580901));
    (27028410831400840, 1036601523357907469, (9293074613134251, 356410717623918358));
    (35470672436533178, 680190805733989111, (9293074613134251, 178205358811959179));
    (30915803278254923, 2964229840775610833, (20104438945694587, 1927628317417703364));
    (21622728665120672, 1036601523357907469, (20104438945694587, 963814158708851682));
    (23141018384546757, 554694444003481628, (20104438945694587, 481907079354425841));
    (23141018384546757, 277347222001740814, (17067859506842417, 204559857352685027));
    (20711754833465021, 1241161380710592496, (19497123057924153, 1168374016061536709));
    (20711754833465021, 620580690355296248, (18282491282383285, 547793325706240461));
    (20711754833465021, 310290345177648124, (15853227731301549, 237502980528592337));
    (20711754833465021, 1551451725888240620, (28024751346418335, 2099245051594481081));
    (20711754833465021, 775725862944120310, (35337747859371649, 1323519188650360771));
    (20711754833465021, 387862931472060155, (29251986051813256, 547793325706240461));
    (20711754833465021, 1939314657360300775, (22419801077134668, 2099245051594481081));
    (34591324692251454, 1619453868891940163, (1708046243669647, 79965197117090153));
    (32883278448581807, 769744335887425005, (3416092487339294, 79965197117090153));
    (29467185961242513, 344889569385167426, (6832184974678588, 79965197117090153));
    (15886185369304158, 929674730121605311, (27245370541295531, 1594425087975133349));
    (31772370738608316, 929674730121605311, (11359185171991373, 332375178926764019));
    (20413185566616943, 298649775597420646, (22718370343982746, 332375178926764019));
    (29961570659683202, 2191724639169974641, (13169985250916487, 963400133450948684));
    (33583170817533430, 1228324505719025957, (13169985250916487, 481700066725474342));
    (27656385882317399, 505774405630814444, (13169985250916487, 240850033362737171));
    (26603253577929859, 2432574672532711812, (13169985250916487, 1204250166813685855));
    (26603253577929859, 1216287336266355906, (26339970501832974, 1204250166813685855));
    (26603253577929859, 608143668133177953, (26076687425736089, 596106498680507902));
    (27129819730123629, 310090418792924002, (26076687425736089, 298053249340253951));
    (26497940347491105, 1514340585606609857, (26287313886613597, 1502303416153939806));
    (26708566808368613, 763188877529639954, (26287313886613597, 751151708076969903));
    (26708566808368613, 381594438764819977, (25866060964858581, 369557269312149926));
    (21198352277992884, 1514340585606609857, (15688137747617155, 1120708977389119829));
    (5510214530375729, 196815804108745014, (31376275495234310, 1120708977389119829));
    (5510214530375729, 98407902054372507, (35201478338589975, 628669467117257294));
    (18060724728469453, 1612748487660982364, (30611234926563177, 2733457465050102193));
    (18060724728469453, 806374243830491182, (25101020396187448, 1120708977389119829));
    (18060724728469453, 403187121915245591, (32141316063905443, 717521855473874238));
    (3980133393033463, 44426194178308472, (32141316063905443, 358760927736937119));
    (15244606461382255, 850800438008799654, (20876842995556651, 1165135171567428301));
    (15244606461382255, 425400219004399827, (26509079529731047, 739734952563028474));
    (30489212922764510, 425400219004399827, (26509079529731047, 369867476281514237));
    (6097842584552902, 425400219004399827, (32606922114283949, 2274737600411971012));
    (12195685169105804, 425400219004399827, (32606922114283949, 1137368800205985506));
    (24391370338211608, 425400219004399827, (32606922114283949, 568684400102992753));
    (16277932558141433, 1419484838111792407, (24442427336212691, 2131453419313378086));
    (32555865116282866, 1419484838111792407, (24442427336212691, 1065726709656689043));
    (8113437780070175, 176879064227551682, (32657979112285032, 711968581201585679));
    (8113437780070175, 88439532113775841, (32862207104289364, 358210452746482315));
    (1622687556014035, 88439532113775841, (34484894660303399, 1879491795846187416));
    (3245375112028070, 88439532113775841, (34484894660303399, 939745897923093708));
    (6490750224056140, 88439532113775841, (34484894660303399, 469872948961546854));
    (1298150044811228, 88439532113775841, (35783044705114627, 2437804276921510111));
    (2596300089622456, 88439532113775841, (34484894660303399, 1174682372403867135));
    (5192600179244912, 88439532113775841, (31888594570680943, 543121420145045647));
    (22994039487719907, 1958153933965459103, (17801439308474995, 1515956273396579898));
    (28186639666964819, 1200175797267169154, (17801439308474995, 757978136698289949));
    (28186639666964819, 600087898633584577, (35602878616949990, 757978136698289949));
    (34124562483974125, 363252541536526519, (7416238949985171, 78945119032352686));
    (35307215390354817, 1879208814933106417, (14241151446779996, 757978136698289949));
    (21066063943574821, 560615339117408234, (28482302893559992, 757978136698289949));
    (21066063943574821, 280307669558704117, (35898541843545163, 477670467139585832));
    (21066063943574821, 1401538347793520585, (15606133946138961, 1038285806256994066));
    (26525993941010681, 882395444665023552, (15606133946138961, 519142903128497033));
    (26525993941010681, 441197722332511776, (31212267892277922, 519142903128497033));
    (17790105945113305, 1479483528589505842, (31212267892277922, 2595714515642485165));
    (17790105945113305, 739741764294752921, (26844323894329234, 1116230987052979323));
    (35580211890226610, 739741764294752921, (9054217949215929, 188244611379113201));
    (26525993941010681, 275748576457819860, (18108435898431858, 188244611379113201));
    (14232084756090644, 739741764294752921, (30402345083351895, 1580224174889912384));
    (28464169512181288, 739741764294752921, (30402345083351895, 790112087444956192));
    (26525993941010681, 344685720572274825, (30402345083351895, 395056043722478096));
    (32606462957681060, 2118484646583852221, (6080469016670379, 395056043722478096));
    (34810580832010225, 1130844537277656981, (6080469016670379, 197528021861239048));
    (33138347563998176, 538260471693939837, (6080469016670379, 98764010930619524));
    (32165639382815227, 2612304701236949841, (6080469016670379, 493820054653097620));
    (33928933682278559, 1377754564604205791, (6080469016670379, 246910027326548810));
    (31375053264534844, 637024482624559361, (6080469016670379, 123455013663274405));
    (25294584247864465, 256784734480642478, (12160938033340758, 123455013663274405));
    (29380792916254409, 1491334871113386528, (12160938033340758, 617275068316372025));
    (29380792916254409, 745667435556693264, (24321876066681516, 617275068316372025));
    (29380792916254409, 372833717778346632, (19262959217108623, 244441350538025393));
    (29380792916254409, 1864168588891733160, (21481067593174370, 1362942503873065289));
    (29380792916254409, 932084294445866580, (13581342270094331, 430858209427198709));
    (29380792916254409, 466042147222933290, (27162684540188662, 430858209427198709));
    (29380792916254409, 2330210736114666450, (17184854074539496, 1362942503873065289));
    (29380792916254409, 1165105368057333225, (34369708149078992, 1362942503873065289));
    (33817009668385903, 670512528518003065, (4988915232824583, 98918567907866032));
    (26497983472698277, 2626966439838264546, (15743449352761430, 1560779639688797353));
    (26497983472698277, 1313483219919132273, (31486898705522860, 1560779639688797353));
    (33040306014098222, 818890380379802113, (4988915232824583, 123648209884832540));
    (31158205398424363, 386121645782888223, (4988915232824583, 61824104942416270));
    (20200603731593705, 1251659114976716003, (25189518964418288, 1560779639688797353));
    (35412292230362827, 1097098852620675328, (4988915232824583, 154560262356040675));
    (35412292230362827, 548549426310337664, (9977830465649166, 154560262356040675));
    (16160482985274964, 1251659114976716003, (29229639710737029, 2263889328355175692));
    (32320965970549928, 1251659114976716003, (29229639710737029, 1131944664177587846));
    (35412292230362827, 685686782887922080, (29229639710737029, 565972332088793923));
    (18774314330367377, 1817631447065509926, (29229639710737029, 2829861660443969615));
    (18774314330367377, 908815723532754963, (20910650760739304, 1012230213378459689));
    (35412292230362827, 857108478609902600, (2136336430371927, 51707244922852363));
    (35412292230362827, 428554239304951300, (4272672860743854, 51707244922852363));
    (22101909910366467, 1337369962837706263, (30893437500736574, 1869338691988362289));
    (35412292230362827, 1071385598262378250, (8791527590370107, 265984364575328013));
    (35412292230362827, 535692799131189125, (17583055180740214, 265984364575328013));
    (24763986374365739, 1873062761968895388, (14115680518368651, 1067661528281845151));
    (24763986374365739, 936531380984447694, (28231361036737302, 1067661528281845151));
    (24763986374365739, 468265690492223847, (31698735699108865, 599395837789621304));
    (31103733514187512, 2940724290250740539, (6339747139821773, 599395837789621304));
    (30508731329266159, 1442234695776687279, (6339747139821773, 299697918894810652));
    (35658474099245226, 842838857987065975, (6339747139821773, 149848959447405326));
    (33278465359559814, 393291979644849997, (6339747139821773, 74924479723702663));
    (34550580487127764, 2041630533566308583, (6339747139821773, 374622398618513315));
    (28210833347305991, 833504067473897634, (12679494279643546, 374622398618513315));
    (28210833347305991, 416752033736948817, (25358988559287092, 374622398618513315));
    (21998297720241013, 1624878499829359766, (15785762093176035, 1165996830973975447));
    (21998297720241013, 812439249914679883, (31571524186352070, 1165996830973975447));
    (34423368974370969, 635660459385032101, (9573226466111057, 176778790529647782));
    (28312602557511427, 2614096540273687431, (12628609674540828, 1165996830973975447));
    (15683992882970599, 724049854649855992, (25257219349081656, 1165996830973975447));
    (15683992882970599, 362024927324927996, (34830445815192713, 803971903649047451));
    (15683992882970599, 181012463662463998, (22608912981473629, 260934512661655457));
    (32752969785641804, 1890046685623831439, (17068976902671205, 984984367311511449));
    (15683992882970599, 452531159156159995, (34137953805342410, 984984367311511449));
    (31367985765941198, 452531159156159995, (18453960922371811, 266226604077675727));
    (22511583644039081, 1623820081546155712, (13655181522136964, 984984367311511449));
    (22511583644039081, 811910040773077856, (27310363044273928, 984984367311511449));
    (22511583644039081, 405955020386538928, (32109142444508775, 579029346924972521));
    (28933412132940836, 2608804448857667161, (35355240621842591, 3187833795782639682));
    (22511583644039081, 1014887550966347320, (35355240621842591, 1593916897891319841));
    (22511583644039081, 507443775483173660, (25687313955607020, 579029346924972521));
    (22511583644039081, 253721887741586830, (28863044267174959, 325307459183385691));
    (22511583644039081, 1268609438707934150, (32786509226281889, 1847638785632906671));
    (22511583644039081, 634304719353967075, (20549851164485616, 579029346924972521));
    (1961732479553465, 27637686214497277, (35214504890310837, 496116288281480690));
    (392346495910693, 27637686214497277, (35999197882132223, 2535856813836398004));
    (784692991821386, 27637686214497277, (35999197882132223, 1267928406918199002));
    (1569385983642772, 27637686214497277, (35999197882132223, 633964203459099501));
    (9083102756797771, 799790320746083163, (34763025043548312, 3060972851911846267));
    (18166205513595542, 799790320746083163, (25679922286750541, 1130591265582881552));
    (10652488740440543, 234494687954642387, (25679922286750541, 565295632791440776));
    (21304977480881086, 234494687954642387, (25679922286750541, 282647816395720388));
    (24804933325576650, 1365085953537523939, (25679922286750541, 1413239081978601940));
    (23929944364402759, 658466412548222969, (25679922286750541, 706619540989300970));
    (22179966442054977, 305156642053572484, (25679922286750541, 353309770494650485));
    (19843946660461320, 1365085953537523939, (25679922286750541, 1766548852473252425));
    (33851917694633419, 1164354504069659696, (5835975626289221, 200731449467864243));
    (33851917694633419, 582177252034829848, (11671951252578442, 200731449467864243));
    (15875157328369056, 1365085953537523939, (29648711618842805, 2549457553975946516));
    (31750314656738112, 1365085953537523939, (29648711618842805, 1274728776987973258));
    (33851917694633419, 727721565043537310, (29648711618842805, 637364388493986629));
    (33851917694633419, 363860782521768655, (25445505543052191, 273503605972217974));
    (33851917694633419, 1819303912608843275, (11859484647537122, 637364388493986629));
    (21992433047096297, 590969762057428323, (23718969295074244, 637364388493986629));
    (35352184854302859, 474983195966032558, (1726536247977947, 23197313218279153));
    (27772148654897914, 1865698539045401581, (9832894967625287, 660561701712265782));
    (35878507374545254, 1205136837333135799, (9832894967625287, 330280850856132891));
    (26045612406919967, 437427993238501454, (19665789935250574, 330280850856132891));
    (32635963886686318, 2740554525522404489, (13075438455484223, 1097989694950767236));
    (26045612406919967, 1093569983096253635, (13075438455484223, 548994847475383618));
    (25940347902871488, 544575135620870017, (13075438455484223, 274497423737691809));
    (12864909447387265, 135038855941589104, (26150876910968446, 274497423737691809));
    (28723858800445899, 1507525974630048149, (26150876910968446, 1372487118688459045));
    (2572981889477453, 67519427970794552, (34290880595594721, 899851122892897181));
    (2572981889477453, 33759713985397276, (35132996627982553, 460974841082732593));
    (21949894284565738, 1440006546659253597, (19376912395088285, 1271207976732267217));
    (2572981889477453, 84399284963493190, (33607861011221664, 1102409406805280837));
    (2572981889477453, 42199642481746595, (33766957459236439, 553814054542575102));
    (18074511805548081, 1482206189141000192, (33576041721618709, 2753414165873267409));
    (18074511805548081, 741103094570500096, (31003059832141256, 1271207976732267217));
    (18074511805548081, 370551547285250048, (25857096053186350, 530104882161767121));
    (18074511805548081, 185275773642625024, (33639680300824619, 344829108519142097));
    (18074511805548081, 926378868213125120, (28417350226822621, 1456483750374892241));
    (18074511805548081, 463189434106562560, (20685676842549080, 530104882161767121));
    (18074511805548081, 231594717053281280, (23296841879550079, 298510165108485841));
    (18074511805548081, 1157973585266406400, (26348782542567713, 1688078467428173521));
    (18074511805548081, 578986792633203200, (34623053279587345, 1109091674794970321));
    (18074511805548081, 289493396316601600, (33097082948078528, 530104882161767121));
    (18074511805548081, 1447466981583008000, (31923733117383019, 2556558656377978321));
    (18074511805548081, 723733490791504000, (27698442623669876, 1109091674794970321));
    (18074511805548081, 361866745395752000, (19247861636243590, 385358184003466321));
    (18074511805548081, 180933372697876000, (20421211466939099, 204424811305590321));
    (18074511805548081, 904666863489380000, (25773656460045517, 1290025047492846321));
    (18074511805548081, 452333431744690000, (33472801114542953, 837691615748156321));
    (18074511805548081, 226166715872345000, (30796578617989744, 385358184003466321));
    (18074511805548081, 1130833579361725000, (27848729890255646, 1742358479237536321));
    (18074511805548081, 565416789680862500, (19548436169415130, 611524899875811321));
    (18074511805548081, 282708394840431250, (21022360533282179, 328816505035380071));
    (18074511805548081, 1413541974202156250, (25893886273314133, 2025066874077967571));
    (18074511805548081, 706770987101078125, (33713260741080185, 1318295886976889446));
    (2435762870015977, 47623043612633402, (33713260741080185, 659147943488444723));
    (29406371462880125, 2874706992016945902, (6742652148216037, 659147943488444723));
    (29406371462880125, 1437353496008472951, (13485304296432074, 659147943488444723));
    (15921067166448051, 389102776260014114, (26970608592864148, 659147943488444723));
    (15921067166448051, 194551388130007057, (22099082852832194, 270045167228430609));
    (31129127174160149, 1901950051366910617, (7604030003856049, 464596555358437666));
    (31842134332896102, 972756940650035285, (7604030003856049, 232298277679218833));
    (24238104329040053, 370229331485408226, (15208060007712098, 232298277679218833));
    (35834146608220969, 2736775938210756509, (17014068871977689, 1299422442202283558));
    (20626086600508871, 787642274907331172, (17014068871977689, 649711221101141779));
    (20626086600508871, 393821137453665586, (34028137743955378, 649711221101141779));
    (15056062188994624, 1437353496008472951, (24542099966475001, 2342954800757090923));
    (30112124377989248, 1437353496008472951, (9486037777480377, 452800652374308986));
    (31766135423537365, 758152517447009472, (9486037777480377, 226400326187154493));
    (31766135423537365, 379076258723504736, (18972075554960754, 226400326187154493));
    (31678529724375700, 1890154148382781937, (25325302639668227, 1511077889659277201));
    (6353227084707473, 189538129361752368, (31590924025214035, 942463501574020097));
    (6353227084707473, 94769064680876184, (31415712626890705, 468618178169639177));
    (25342823779500560, 1890154148382781937, (18989596694793087, 1416308824978401017));
    (6353227084707473, 236922661702190460, (31625966304878701, 1179386163276210557));
    (6353227084707473, 118461330851095230, (31485797186220037, 587079509020734407));
    (20274259023600448, 1890154148382781937, (34195290962493423, 3188001642510087724));
    (6353227084707473, 296153327127738075, (34195290962493423, 1594000821255043862));
    (12706454169414946, 296153327127738075, (34195290962493423, 797000410627521931));
    (25412908338829892, 296153327127738075, (21488836793078477, 250423541749891928));
    (23058465411379043, 1343577279505151934, (22273651102228760, 1297847494127305787));
    (23058465411379043, 671788639752575967, (21488836793078477, 626058854374729820));
    (24628094029679609, 358759212565211057, (21488836793078477, 313029427187364910));
    (14149004970487539, 1030547852317787024, (31967925852270547, 2328395346445092811));
    (14149004970487539, 515273926158893512, (35637841763566016, 1297847494127305787));
    (14149004970487539, 257636963079446756, (28828668615669415, 524936604888965519));
    (34063743664108961, 3101306235683433079, (19914738693621422, 1813121420286199299));
    (14149004970487539, 644092407698616890, (25680472416755305, 1169029012587582409));
    (14149004970487539, 322046203849308445, (23062934892535532, 524936604888965519));
    (28298009940975078, 322046203849308445, (8913929922047993, 101445200519828537));
    (28298009940975078, 1610231019246542225, (24421193937189661, 1389630015917062317));
    (3876816003785417, 110300501664739954, (33335123859237654, 948428009258102501));
    (3876816003785417, 55150250832369977, (35655719688191972, 507226002599142685));
    (21863044752022979, 1555080768414172248, (17986228748237562, 1279329514252322363));
    (21863044752022979, 777540384207086124, (35972457496475124, 1279329514252322363));
    (21863044752022979, 388770192103543062, (28218825488904290, 501789130045236239));
    (27506809849803837, 2445640090562951549, (33150574947584695, 2947429220608187788));
    (21863044752022979, 971925480258857655, (33150574947584695, 1473714610304093894));
    (10575514556461263, 235068175106810708, (33150574947584695, 736857305152046947));
    (10575514556461263, 117534087553405354, (34574606225785601, 384255042491830885));
    (23835744535495141, 1324527742919073717, (13260229979033878, 736857305152046947));
    (10575514556461263, 293835218883513385, (26520459958067756, 736857305152046947));
    (21151029112922526, 293835218883513385, (15944945401606493, 221511043134266781));
    (25446573789038710, 1767549829187607279, (13797173063548401, 958368348286313728));
    (23298801450980618, 809181480901293551, (13797173063548401, 479184174143156864));
    (32800429838412835, 569589393829715119, (13797173063548401, 239592087071578432));
    (20357259031230968, 1767549829187607279, (34154432094779369, 2965510264545499439));
    (26917344998913535, 1168569611508661199, (13797173063548401, 598980217678946080));
    (26240343870730268, 569589393829715119, (13797173063548401, 299490108839473040));
    (24886341614363734, 270099284990242079, (13797173063548401, 149745054419736520));
    (35331049062679229, 1917294883607343799, (13797173063548401, 748725272098682600));
    (29270578934713255, 794206975459319899, (13797173063548401, 374362636049341300));
    (30946811742329708, 419844339409978599, (13797173063548401, 187181318024670650));
    (25505404637433703, 1730113565582673149, (13797173063548401, 935906590123353250));
    (23416463147770604, 794206975459319899, (13797173063548401, 467953295061676625));
    (9619290084222203, 163126840198821637, (27594346127096802, 467953295061676625));
    (7442727242263801, 631080135260498262, (35037073369360603, 2970846610568881387));
    (7442727242263801, 315540067630249131, (32860510527402201, 1393146272417635732));
    (14885454484527602, 315540067630249131, (32860510527402201, 696573136208817866));
    (29770908969055204, 315540067630249131, (32860510527402201, 348286568104408933));
    (29770908969055204, 1577700338151245655, (12526283899291481, 663826635734658064));
    (34489250139527446, 913873702416587591, (12526283899291481, 331913317867329032));
    (31399648581180449, 416003725615594043, (12526283899291481, 165956658933664516));
    (33837754294677348, 2241526973885903719, (12526283899291481, 829783294668322580));
    (30096656891480253, 996852031883419849, (12526283899291481, 414891647334161290));
    (35140745984377544, 581960384549258559, (12526283899291481, 207445823667080645));
    (34585973775316767, 2863864444887145654, (12526283899291481, 1037229118335403225));
    (34585973775316767, 1431932222443572827, (25052567798582962, 1037229118335403225));
    (9533405976733805, 197351552054084801, (31038323643698314, 642526014227233623));
    (19066811953467610, 197351552054084801, (21504917666964509, 222587231086574411));
    (3813362390693522, 197351552054084801, (32945004839045075, 1704990811595126458));
    (7626724781387044, 197351552054084801, (32945004839045075, 852495405797563229));
    (15253449562774088, 197351552054084801, (25318280057658031, 327571926871739214));
    (14215725749196059, 919626583033993617, (27393727684814089, 1772121988831556846));
    (28431451498392118, 919626583033993617, (27393727684814089, 886060994415778423));
    (1037723813578029, 16782794309107597, (35070702911645627, 567187902542734080));
    (11580125362072453, 936409377343101214, (33702652272639330, 2725314160483765657));
    (11580125362072453, 468204688671550607, (32664928459061301, 1320700094469113836));
    (23160250724144906, 468204688671550607, (32664928459061301, 660350047234556918));
    (13655572989228511, 138029665054272148, (32664928459061301, 330175023617278459));
    (25061186271128185, 1266584400960379673, (28863057365094743, 1458729759523385984));
    (21259315177161627, 537219521198686681, (28863057365094743, 729364879761692992));
    (13655572989228511, 172537081317840185, (28863057365094743, 364682439880846496));
    (20048949016902548, 1266584400960379673, (28863057365094743, 1823412199404232480));
    (11234840668710353, 354878301258263433, (28863057365094743, 911706099702116240));
    (22469681337420706, 354878301258263433, (28863057365094743, 455853049851058120));
    (14760484007987231, 1165609652367584986, (21811770686540987, 1722437450811437793));
    (14760484007987231, 582804826183792493, (28863057365094743, 1139632624627645300));
    (29520968015974462, 582804826183792493, (28863057365094743, 569816312313822650));
    (11676805076213841, 1152621138497615143, (28863057365094743, 2849081561569113250));
    (23353610152427682, 1152621138497615143, (28863057365094743, 1424540780784556625));
    (35688325879521242, 880701496210673661, (5509447212667061, 135959821143470741));
    (30178878666854181, 372370837533601460, (11018894425334122, 135959821143470741));
    (30754439588683818, 1897362813564818063, (10443333503504485, 644290479820542942));
    (30178878666854181, 930927093834003650, (10443333503504485, 322145239910271471));
    (30178878666854181, 465463546917001825, (20886667007008970, 322145239910271471));
    (34356212068255975, 2649462974495280596, (4177333401401794, 322145239910271471));
    (34356212068255975, 1324731487247640298, (8354666802803588, 322145239910271471));
    (34356212068255975, 662365743623820149, (16709333605607176, 322145239910271471));
    (23580576019258371, 2273091943175177504, (16709333605607176, 1610726199551357355));
    (23580576019258371, 1136545971587588752, (33418667211214352, 1610726199551357355));
    (23580576019258371, 568272985793794376, (19676182383911962, 474180227963768603));
    (23580576019258371, 284136492896897188, (15771788748565553, 190043735066871415));
    (23580576019258371, 1420682464484485940, (12586588157416459, 758316720860665791));
    (23580576019258371, 710341232242242970, (25173176314832918, 758316720860665791));
    (23580576019258371, 355170616121121485, (26765776610407465, 403146104739544306));
    (28933731341339864, 2178999185345151731, (34286886663421357, 2582145290084696037));
    (31101686072272263, 1171133923496290966, (5353155322081493, 201573052369772153));
    (31101686072272263, 585566961748145483, (10706310644162986, 201573052369772153));
    (10502861472119647, 988713066487689789, (31712033588402280, 2985291394824240343));
    (21005722944239294, 988713066487689789, (21209172116282633, 998289164168275277));
    (35907970727178418, 845071601278907469, (203449172043339, 4788048840292744));
    (36008887174729172, 423723303333145997, (203449172043339, 2394024420146372));
    (33487087207556867, 1970244059714940462, (16845268189800103, 991107090907836161));
    (33487087207556867, 985122029857470231, (33690536379600206, 991107090907836161));
    (35846451092482867, 527264859504476586, (203449172043339, 2992530525182965));
    (26911739269271497, 1979221651290489357, (13557594220657418, 997092151958202091));
    (13354145048614079, 491064749666143633, (27115188441314836, 997092151958202091));
    (26708290097228158, 491064749666143633, (13761043392700757, 253013701146029229));
    (34802156795213941, 3199402199142891027, (8093866697985783, 744078450812172862));
    (29134980100498967, 1339206072112458872, (8093866697985783, 372039225406086431));
    (29134980100498967, 669603036056229436, (16187733395971566, 372039225406086431));
    (29134980100498967, 334801518028114718, (32375466791943132, 372039225406086431));
    (31727369453654299, 1822958419652460442, (32375466791943132, 1860196127030432155));
    (31727369453654299, 911479209826230221, (33023564130231965, 948716917204201934));
    (30431174777076633, 437120751224129254, (33023564130231965, 474358458602100967));
    (30431174777076633, 2185603756120646270, (6604712826046393, 474358458602100967));
    (30431174777076633, 1092801878060323135, (13209425652092786, 474358458602100967));
    (17221749124983847, 309221709729111084, (26418851304185572, 474358458602100967));
    (22740010432504882, 2041518795264525069, (24579430868345227, 2206655544137514952));
    (20900589996664537, 938191023195767593, (24579430868345227, 1103327772068757476));
    (17221749124983847, 386527137161388855, (24579430868345227, 551663886034378738));
    (34443498249967694, 386527137161388855, (24579430868345227, 275831943017189369));
    (21636358171000675, 1214022966212956962, (24579430868345227, 1379159715085946845));
    (21636358171000675, 607011483106478481, (27522503565689779, 772148231979468364));
    (15750212776311571, 220937367116744299, (27522503565689779, 386074115989734182));
    (8654543268400270, 607011483106478481, (27522503565689779, 1930370579948670910));
    (17309086536800540, 607011483106478481, (27522503565689779, 965185289974335455));
    (34618173073601080, 607011483106478481, (10213417028889239, 179086903433928487));
    (6923634614720216, 607011483106478481, (30984320873049887, 2716468966489077878));
    (13847269229440432, 607011483106478481, (30984320873049887, 1358234483244538939));
    (27694538458880864, 607011483106478481, (17137051643609455, 375611500069030229));
    (10557486815271409, 115699991518724126, (34274103287218910, 375611500069030229));
    (31121948787602755, 1705334457800711317, (6854820657443782, 375611500069030229));
    (24267128130158973, 664861478865840544, (13709641314887564, 375611500069030229));
    (24267128130158973, 332430739432920272, (27419282629775128, 375611500069030229));
    (24897559030082204, 1705334457800711317, (25527989930005435, 1748515218436821274));
    (24267128130158973, 831076848582300680, (25527989930005435, 874257609218410637));
    (24267128130158973, 415538424291150340, (26788851729851897, 458719184927260297));
    (34478324102161147, 2951949730674162337, (10211195972002174, 874257609218410637));
    (24267128130158973, 1038846060727875850, (20422391944004348, 874257609218410637));
    (24267128130158973, 519423030363937925, (16577655757849723, 354834578854472712));
    (31956600502468223, 342005740936701569, (16577655757849723, 177417289427236356));
    (22729233655697123, 1216263350155112206, (19653444706773423, 1051674898645646993));
    (22729233655697123, 608131675077556103, (16577655757849723, 443543223568090890));
    (28880811553544523, 386360063293510658, (16577655757849723, 221771611784045445));
    (21498918076127643, 1438034961939157651, (19038286916988683, 1273446510429692438));
    (23959549235266603, 801311706724311432, (19038286916988683, 636723255214846219));
    (23959549235266603, 400655853362155716, (14117024598710763, 236067401852690503));
    (21991044307955435, 1838690815301313367, (20022539380644267, 1674102363791848154));
    (23959549235266603, 1001639633405389290, (20022539380644267, 837051181895924077));
    (23959549235266603, 500819816702694645, (16085529526021931, 336231365193229432));
    (31833568944511275, 332704134106079929, (16085529526021931, 168115682596614716));
    (35185670892728696, 1838690815301313367, (28818957103826441, 1505986681195233438));
    (12733427577804510, 332704134106079929, (28818957103826441, 752993340597616719));
    (25466855155609020, 332704134106079929, (16085529526021931, 210144603245768395));
    (31365642619387343, 2048835418547081762, (26272271588265539, 1716131284441001833));
    (31365642619387343, 1024417709273540881, (21178900557143735, 691713575167460952));
    (20373484124487216, 332704134106079929, (21178900557143735, 345856787583730476));
    (33080824458773457, 2701091033281591073, (4235780111428747, 345856787583730476));
    (32275408026116938, 1317663882946669169, (4235780111428747, 172928393791865238));
    (34900355272232647, 712414504675140836, (4235780111428747, 86464196895932619));
    (34900355272232647, 356207252337570418, (8471560222857494, 86464196895932619));
    (35783375812162009, 1826098599568424941, (8471560222857494, 432320984479663095));
    (27311815589304515, 696888807544380923, (16943120445714988, 432320984479663095));
    (10368695143589527, 132283911532358914, (33886240891429976, 432320984479663095));
    (10924726235721806, 696888807544380923, (33330209799297697, 2126135672515729122));
    (21849452471443612, 696888807544380923, (33330209799297697, 1063067836257864561));
    (32218147615033139, 513799293187639104, (11480757327854085, 183089514356741819));
    (34514299080603956, 2752085980294937339, (2296151465570817, 183089514356741819));
    (32218147615033139, 1284498232969097760, (4592302931141634, 183089514356741819));
    (32218147615033139, 642249116484548880, (9184605862283268, 183089514356741819));
    (10117471867919935, 1008428145198032518, (29419549598123138, 2932303862179774131));
    (10117471867919935, 504214072599016259, (28486683592486471, 1419661644382725354));
    (20234943735839870, 504214072599016259, (28486683592486471, 709830822191362677));
    (32218147615033139, 401405697802843050, (8251739856646601, 102808374796173209));
    (8093977494335948, 504214072599016259, (32533672339654445, 2026684091777914822));
    (16187954988671896, 504214072599016259, (32533672339654445, 1013342045888957411));
    (32375909977343792, 504214072599016259, (16345717350982549, 254563986644970576));
    (22694689456602785, 1767206204442019353, (35708158392464563, 2780548250330976764));
    (9681220520741007, 376932079276530971, (35708158392464563, 1390274125165488382));
    (19362441041482014, 376932079276530971, (35708158392464563, 695137062582744191));
    (18155751565282228, 1767206204442019353, (35708158392464563, 3475685312913720955));
    (18759096303382121, 912966650206168552, (17552406827182335, 854239554235850801));
    (18759096303382121, 456483325103084276, (35104813654364670, 854239554235850801));
    (18759096303382121, 228241662551542138, (32691434701965098, 397756229132766525));
    (32801021765127989, 1995447866993561491, (14041925461745868, 854239554235850801));
    (18759096303382121, 570604156378855345, (28083850923491736, 854239554235850801));
    (28193437986654627, 428786457450357617, (9324754620109615, 141817698928497728));
    (35653241682742319, 2711203082965778997, (1864950924021923, 141817698928497728));
    (35872415809068101, 1363934943145050581, (1864950924021923, 70908849464248864));
    (34445813137697742, 654846448502561941, (1864950924021923, 35454424732124432));
    (35236416672672778, 3349382728144018773, (1864950924021923, 177272123660622160));
    (35038765788929019, 1665297553368108253, (1864950924021923, 88636061830311080));
    (34643464021441501, 823254965980152993, (1864950924021923, 44318030915155540));
    (35717811410488388, 424392687743753133, (1864950924021923, 22159015457577770));
    (34744835957622138, 2064159831604508113, (1864950924021923, 110795077287888850));
    (35920555282849662, 1067004136013508463, (1864950924021923, 55397538643944425));
    (34055604358827739, 505803298684782019, (3729901848043846, 55397538643944425));
    (22476708633549701, 1669151610207614944, (26206610481593547, 1946139303427337069));
    (22476708633549701, 834575805103807472, (29936512329637393, 1111563498323529597));
    (22476708633549701, 417287902551903736, (14919607392175384, 276987693219722125));
    (22476708633549701, 2086439512759518680, (29955971838694718, 2780715108531144541));
    (22476708633549701, 1043219756379759340, (14958526410290034, 694275595771625861));
    (22476708633549701, 521609878189879670, (29917052820580068, 694275595771625861));
    (22476708633549701, 260804939094939835, (14880688374060734, 172665717581746191));
    (22476708633549701, 1304024695474699175, (29948188035071788, 1737495352151385201));
    (30010458464055228, 870554038798013149, (7471479401522087, 216735328338343013));
    (22538979062533141, 326909355229835068, (14942958803044174, 216735328338343013));
    (7496387573115463, 543644683568178081, (29935733949275100, 2170966008828071227));
    (14992775146230926, 543644683568178081, (22439346376159637, 813660662629946573));
    (29985550292461852, 543644683568178081, (7446571229928711, 135007989530884246));
    (13483534362970483, 1222297356667240408, (23948587159420080, 2170966008828071227));
    (13483534362970483, 611148678333620204, (34413639955869677, 1559817330494451023));
    (13483534362970483, 305574339166810102, (28376676822827905, 643094312994020717));
    (13483534362970483, 152787169583405051, (29786284919714844, 337519973827210615));
    (13483534362970483, 763935847917025255, (24834205092101645, 1407030160911045972));
    (26967068725940966, 763935847917025255, (24834205092101645, 703515080455522986));
    (29099932359780287, 412178307689263762, (24834205092101645, 351757540227761493));
    (34066773378200616, 2412649078674080303, (4966841018420329, 351757540227761493));
    (29099932359780287, 1030445769223159405, (9933682036840658, 351757540227761493));
    (19166250322939629, 339344114497698956, (19867364073681316, 351757540227761493));
    (7806722879324189, 691101654725460449, (35480809832329694, 3140991010589728363));
    (15613445758648378, 691101654725460449, (27674086953005505, 1224944677932133957));
    (31226891517296756, 691101654725460449, (12060641194357127, 266921511603336754));
    (26271859451522131, 290719387320455318, (12060641194357127, 133460755801668377));
    (10078628368047277, 557640898923792072, (32217897930451681, 1782585576855926029));
    (10078628368047277, 278820449461896036, (34199910756761531, 946124228470237921));
    (10078628368047277, 139410224730948018, (28085308041333954, 388483329546445849));
    (31821495365189711, 2200816251048770083, (21742866997142434, 1503765127394029993));
    (10078628368047277, 348525561827370045, (33407105626237591, 1155239565566659948));
    (20157256736094554, 348525561827370045, (33407105626237591, 577619782783329974));
    (30870129208560983, 2668773153747550244, (10712872472466429, 926145344610700019));
    (30870129208560983, 1334386576873775122, (21425744944932858, 926145344610700019));
    (30870129208560983, 667193288436887561, (11981360681304733, 258952056173812458));
    (25796176373207767, 278765204176168874, (11981360681304733, 129476028086906229));
    (27092375503109733, 1463862604960681351, (19536868092207233, 1055621372697606248));
    (34647882914012233, 936051918611878227, (19536868092207233, 527810686348803124));
    (30222029643610000, 408241232263075103, (19536868092207233, 263905343174401562));
    (25581274020929233, 1727767948135082913, (19536868092207233, 1319526715872007810));
    (31625679949651233, 1068004590199079008, (19536868092207233, 659763357936003905));
    (31625679949651233, 534002295099539504, (7448056234763233, 125761062836464401));
    (21954630463696033, 1853529010971547314, (17119105720718433, 1445287778708472211));
    (21954630463696033, 926764505485773657, (34238211441436866, 1445287778708472211));
    (31625679949651233, 667502868874424380, (12283580977740833, 259261636611349277));
    (31625679949651233, 333751434437212190, (24567161955481666, 259261636611349277));
    (23888840360887073, 1260515939922985847, (16152000772122913, 852274707659910744));
    (31625679949651233, 834378586093030475, (16152000772122913, 426137353829955372));
    (30947358355056640, 408241232263075103, (16152000772122913, 213068676914977686));
    (22341472443134241, 1473584616837963533, (16152000772122913, 1065343384574888430));
    (28530944114145569, 940912924550519318, (16152000772122913, 532671692287444215));
    (28530944114145569, 470456462275259659, (32304001544245826, 532671692287444215));
    (28530944114145569, 2352282311376298295, (12166989131678279, 1003128154562703874));
    (32727909964934580, 1349154156813594421, (12166989131678279, 501564077281351937));
    (20560920833256301, 423795039766121242, (24333978263356558, 501564077281351937));
    (20560920833256301, 211897519883060621, (28107035693456815, 289666557398291316));
    (31803735110639027, 1638820714211885737, (5621407138691363, 289666557398291316));
    (35500434527821239, 914654320716157447, (5621407138691363, 144833278699145658));
    (31651019084802937, 407737845269147644, (5621407138691363, 72416639349572829));
    (29940113799464312, 1928487271610177053, (35561520938155675, 2290570468358041198));
    (24318706660772949, 783202037431156454, (35561520938155675, 1145285234179020599));
    (24318706660772949, 391601018715578227, (22485628554765452, 362083196747864145));
    (24318706660772949, 1958005093577891135, (14224608375262270, 1145285234179020599));
    (10094098285510679, 406359929699435268, (28449216750524540, 1145285234179020599));
    (10094098285510679, 203179964849717634, (26616138644517043, 535745339629867697));
    (10094098285510679, 101589982424858817, (33044080718012728, 332565374780150063));
    (32853471685930311, 1653235146303314684, (22759373400419632, 1145285234179020599));
    (32853471685930311, 826617573151657342, (12665275114908953, 318667661027363257));
    (32853471685930311, 413308786575828671, (25330550229817906, 318667661027363257));
    (31348887394707830, 1971902807330677941, (29844303103485349, 1877261681782212527));
    (1504584291222481, 47320562774232707, (35615257547411002, 1120132677394489215));
    (3009168582444962, 47320562774232707, (34110673256188521, 536406057310128254));
    (25079109915766264, 1971902807330677941, (11034970666660651, 867649996729757203));
    (14044139249105613, 552126405300460369, (22069941333321302, 867649996729757203));
    (28088278498211226, 552126405300460369, (8025802084215689, 157761795714648417));
    (35311094614696609, 3470520227517410631, (7222816116485383, 709888201015108786));
    (34508108646966303, 1695799724979638666, (7222816116485383, 354944100507554393));
    (34508108646966303, 847899862489819333, (14445632232970766, 354944100507554393));
    (20062476413995537, 246477880991132470, (28891264465941532, 354944100507554393));
    (27125506855552333, 1666254283021350042, (28891264465941532, 1774720502537771965));
    (27125506855552333, 833127141510675021, (30657022076330731, 941593361027096944));
    (23593991634773935, 362330460997126549, (30657022076330731, 470796680513548472));
    (4718798326954787, 362330460997126549, (35375820403285518, 2716313863564868909));
    (9437596653909574, 362330460997126549, (30657022076330731, 1176991701283871180));
    (18875193307819148, 362330460997126549, (30657022076330731, 588495850641935590));
    (33494367892053757, 3214809395914312966, (16037847492096122, 1539322162280997729));
    (33494367892053757, 1607404697957156483, (32075694984192244, 1539322162280997729));
    (1418672907861513, 34041267838079377, (35777931811154228, 858496805519410189));
    (2837345815723026, 34041267838079377, (34359258903292715, 412227768840665406));
    (27930432639932216, 1675487233633315237, (12546543412104595, 752640447221459176));
    (30767778455655242, 922846786411856061, (12546543412104595, 376320223610729588));
    (23895926674996699, 358366450995761679, (12546543412104595, 188160111805364794));
    (33933161404680375, 2544472702200267571, (2509308682420919, 188160111805364794));
    (35245309937888803, 1321431975465396410, (2509308682420919, 94080055902682397));
    (35245309937888803, 660715987732698205, (5018617364841838, 94080055902682397));
    (31138425338818583, 2918637329397075733, (5018617364841838, 470400279513411985));
    (26119807973976745, 1224118524941831874, (10037234729683676, 470400279513411985));
    (26119807973976745, 612059262470915937, (20074469459367352, 470400279513411985));
    (6045338514609393, 70829491478751976, (34103600404125311, 399570788034660009));
    (25298431054162701, 1482030330018987931, (14850507864572003, 869971067548071994));
    (35746354243753399, 1047044796244951934, (14850507864572003, 434985533774035997));
    (35746354243753399, 523522398122475967, (29701015729144006, 434985533774035997));
    (35746354243753399, 2617611990612379835, (13089473994579481, 958507931896511964));
    (32224286503768355, 1179850092767611889, (13089473994579481, 479253965948255982));
    (25180151023798267, 460969143845227916, (13089473994579481, 239626982974127991));
    (25979188596086823, 2377985007638251844, (13089473994579481, 1198134914870639955));
    (25979188596086823, 1188992503819125922, (26178947989158962, 1198134914870639955));
    (25979188596086823, 594496251909562961, (26378707382231101, 603638662961076994));
    (25579669809942545, 292676920429024464, (26378707382231101, 301819331480538497));
    (5115933961988509, 292676920429024464, (31494641344219610, 1801773577831716949));
    (5115933961988509, 146338460214512232, (32293678916508166, 923742816544643557));
    (5115933961988509, 73169230107256116, (33891754061085278, 484727435901106861));
    (30311647037364197, 2167619728367997529, (25195713075375688, 1801773577831716949));
    (5115933961988509, 182923075268140290, (35043624264785849, 1253004352027296079));
    (5115933961988509, 91461537634070145, (34275710795652135, 612773588588805064));
    (27318878007084463, 2442004341270207964, (22202944045095954, 1984696653099857239));
    (27318878007084463, 1221002170635103982, (17087010083107445, 763694482464753257));
    (27318878007084463, 610501085317551991, (34174020166214890, 763694482464753257));
    (34072329536777645, 380710989596750092, (6855142159130427, 76596698573600633));
    (34153682040327441, 1908099954526256606, (13669608066485956, 763694482464753257));
    (34153682040327441, 954049977263128303, (27339216132971912, 763694482464753257));
    (6814465907355529, 95177747399187523, (34235034543877237, 478161240267190688));
    (16387259179073188, 1144405472061503349, (25960052450790847, 1812922207127069083));
    (32774518358146376, 1144405472061503349, (9572793271717659, 334258367532782867));
    (23201725086428717, 405073552264360241, (19145586543435318, 334258367532782867));
    (8469462325972807, 739331919797143108, (27615048869408125, 2410623757461057443));
    (8469462325972807, 369665959898571554, (29821710760897829, 1301625877765342781));
    (8469462325972807, 184832979949285777, (34235034543877237, 747126937917485450));
    (16938924651945614, 184832979949285777, (34235034543877237, 373563468958742725));
    (16938924651945614, 924164899746428885, (30561501421499307, 1667394328603743164));
    (33877849303891228, 924164899746428885, (30561501421499307, 833697164301871582));
    (6632695764783842, 90467735444557303, (30561501421499307, 416848582150935791));
    (20989979158813121, 1431481217341921979, (25775740290156214, 1757862064048300467));
    (32408436054940056, 1105100370635543491, (4785761131343093, 163190423353189244));
    (31316544190478461, 533933888899381137, (4785761131343093, 81595211676594622));
    (18706287779587734, 1594671640695111223, (23492048910930827, 2002647699078084333));
    (32626814427832375, 1390683611503624668, (4785761131343093, 203988029191486555));
    (32626814427832375, 695341805751812334, (9571522262686186, 203988029191486555));
    (32626814427832375, 347670902875906167, (19143044525372372, 203988029191486555));
    (6525362885566475, 347670902875906167, (32193770296505322, 1715281951709245109));
    (13050725771132950, 347670902875906167, (25668407410938847, 683805524416669471));
    (26101451542265900, 347670902875906167, (12617681639805897, 168067310770381652));
    (5220290308453180, 347670902875906167, (33498842873618617, 2231020165355532928));
    (10440580616906360, 347670902875906167, (33498842873618617, 1115510082677766464));
    (20881161233812720, 347670902875906167, (33498842873618617, 557755041338883232));
    (4176232246762544, 347670902875906167, (33498842873618617, 2788775206694416160));
    (8352464493525088, 347670902875906167, (33498842873618617, 1394387603347208080));
    (16704928987050176, 347670902875906167, (33498842873618617, 697193801673604040));
    (33409857974100352, 347670902875906167, (33498842873618617, 348596900836802020));
    (33427654954004005, 1739280512340426688, (33445451933907658, 1740206510301322541));
    (33427654954004005, 869640256170213344, (33463248913811311, 870566254131109197));
    (33427654954004005, 434820128085106672, (33498842873618617, 435746126046002525));
    (6685530990800801, 434820128085106672, (33498842873618617, 2178730630230012625));
    (6685530990800801, 217410064042553336, (33570030793233229, 1091680310017245945));
    (6685530990800801, 108705032021276668, (33712406632462453, 548155149910862605));
    (6685530990800801, 543525160106383340, (29473286695215214, 2396140694272565961));
    (6685530990800801, 271762580053191670, (32204449427227224, 1309090374059799281));
    (6685530990800801, 135881290026595835, (30981243900450443, 629683923926820106));
    (13371061981601602, 135881290026595835, (30981243900450443, 314841961963410053));
    (13371061981601602, 679406450132979175, (35612585139613613, 1809536152255964238));
    (26742123963203204, 679406450132979175, (35612585139613613, 904768076127982119));
    (35743325573585590, 454044824137976231, (8870461176410409, 112680812997501472));
    (30316456520561763, 1925538537401436053, (23167791405844645, 1471493713263459822));
    (14297330229434236, 454044824137976231, (23167791405844645, 735746856631729911));
    (28594660458868472, 454044824137976231, (8870461176410409, 140851016246876840));
    (28198005072941023, 2238732345292535444, (9267116562337858, 735746856631729911));
    (28198005072941023, 1119366172646267722, (18534233124675716, 735746856631729911));
    (28198005072941023, 559683086323133861, (8870461176410409, 176063770308596050));
    (13053294264458491, 1295429942954863772, (24015171984892941, 2383304340203785783));
    (13053294264458491, 647714971477431886, (34977049705327391, 1735589368726353897));
    (13053294264458491, 323857485738715943, (30794216617279309, 764016911510206068));
    (26106588528916982, 323857485738715943, (30794216617279309, 382008455755103034));
    (26106588528916982, 1619287428693579715, (21822796440806051, 1353580912971250863));
    (4283792088110931, 132853257861164426, (35078008705390240, 1087874397248922011));
    (4283792088110931, 66426628930582213, (35885680705893032, 556461365804264307));
    (22598787658377958, 1752140686554744141, (18314995570267027, 1420007541901833076));
    (26882579746488889, 1042136915603827603, (18314995570267027, 710003770950916538));
    (35450163922710751, 687135030128369334, (18314995570267027, 355001885475458269));
    (32731026582915988, 3172148228456577217, (18314995570267027, 1775009427377291345));
    (14416031012648961, 698569400539642936, (22213960127885093, 1076440026837648409));
    (14416031012648961, 349284700269821468, (30011889243121225, 727155326567826941));
    (14416031012648961, 174642350134910734, (31191716460944528, 377870626298005473));
    (14416031012648961, 873211750674553670, (26420786709897451, 1600367077242380611));
    (14416031012648961, 436605875337276835, (24009511394496980, 727155326567826941));
    (28832062025297922, 436605875337276835, (9593480381848019, 145274725615275053));
    (19217933291548357, 1455092351627105558, (28821737849347149, 2182247678194932499));
    (19217933291548357, 727546175813552779, (19207609115597584, 727155326567826941));
    (10324175950773, 195424622862919, (36020009410615832, 681816814063629733));
    (23063584785048183, 2182833952063521256, (15372281798048531, 1454896927004242639));
    (23063584785048183, 1091416976031760628, (30744563596097062, 1454896927004242639));
    (23063584785048183, 545708488015880314, (15361957622097758, 363479950972482011));
    (23063584785048183, 272854244007940157, (30723915244195516, 363479950972482011));
    (23063584785048183, 1364271220039700785, (19982933919868013, 1182042682996302482));
    (26144235650228353, 773249878541549544, (19982933919868013, 591021341498151241));
    (26144235650228353, 386624939270774772, (13821632189507673, 204396402227376469));
    (21215194265940081, 1568667622267077254, (18750673573795945, 1386439085223678951));
    (21215194265940081, 784333811133538627, (16286152881651809, 602105274090140324));
    (26144235650228353, 483281174088468465, (16286152881651809, 301052637045070162));
    (13714924836421703, 1267614985222007092, (28715463695458459, 2654054070445686043));
    (13714924836421703, 633807492611003546, (30001077718073512, 1386439085223678951));
    (13714924836421703, 316903746305501773, (32572305763303618, 752631592612675405));
    (27429849672843406, 316903746305501773, (18857380926881915, 217863923153586816));
    (27429849672843406, 1584518731527508865, (31201325858219789, 1802382654681095681));
    (36002318418804897, 1039858923643541825, (3771476185376383, 108931961576793408));
    (34289874983845964, 495199115759574785, (3771476185376383, 54465980788396704));
    (23452470212425278, 1693450693104302273, (27223946397801661, 1965780597046285793));
    (35590511868721407, 1284955837191326993, (3771476185376383, 136164951970991760));
    (33466261883678984, 604131077336368193, (3771476185376383, 68082475985495880));
    (19516271407015499, 1761533169089798153, (23287747592391882, 2101945549017277553));
    (35261066628654615, 1591326979126058453, (3771476185376383, 170206189963739700));
    (32807371403545400, 740296029307359953, (3771476185376383, 85103094981869850));
    (35442933324079736, 399883649379880553, (3771476185376383, 42551547490934925));
    (28208853302923692, 1591326979126058453, (31980329488300075, 1804084716580733078));
    (24437377117547309, 689284620835691914, (31980329488300075, 902042358290366539));
    (24437377117547309, 344642310417845957, (15085904741505532, 212757737454674625));
    (24437377117547309, 1723211552089229785, (12792131795320030, 902042358290366539));
    (11645245322227279, 410584596899431623, (25584263590640060, 902042358290366539));
    (23290490644454558, 410584596899431623, (13939018268412781, 245728880695467458));
    (26995803476611315, 2379525029684128866, (10233705436256024, 902042358290366539));
    (26995803476611315, 1189762514842064433, (20467410872512048, 902042358290366539));
    (6528392604099267, 143860078275848947, (34406429140924829, 758182280014517592));
    (13056785208198534, 143860078275848947, (34406429140924829, 379091140007258796));
    (25866571567834311, 1424993576573474282, (30136500354379570, 1660224638304884131));
    (25866571567834311, 712496788286737141, (34406429140924829, 947727850018146990));
    (17326713994743793, 238632863277663646, (34406429140924829, 473863925009073495));
    (13811971426082483, 951129651564400787, (24109200283503656, 1660224638304884131));
    (27623942852164966, 951129651564400787, (10297228857421173, 354547493370241672));
    (34653427989487586, 596582158194159115, (10297228857421173, 177273746685120836));
    (13109022912350221, 1128403398249521623, (23406251769771394, 2014772131675125803));
    (26218045824700442, 1128403398249521623, (10297228857421173, 443184366712802090));
    (31841633934558538, 685219031536719533, (10297228857421173, 221592183356401045));
    (21544405077137365, 231813424090159244, (20594457714842346, 221592183356401045));
    (33521100761124765, 1803401189052482957, (29212219745697292, 1571587764962323713));
    (4308881015427473, 115906712045079622, (32571153398829746, 876147492691845981));
    (4308881015427473, 57953356022539811, (34980139689667181, 470474000534067304));
    (26816880608899812, 1803401189052482957, (22507999593472339, 1513634408939783902));
    (31125761624327285, 1046583984582591006, (22507999593472339, 756817204469891951));
    (31125761624327285, 523291992291295503, (13890237562617393, 233525212178596448));
    (6225152324865457, 523291992291295503, (32565694537213764, 2737502037766868749));
    (12450304649730914, 523291992291295503, (26340542212348307, 1107105022737786623));
    (24900609299461828, 523291992291295503, (13890237562617393, 291906515223245560));
    (35910981036306263, 377338734679672723, (13890237562617393, 145953257611622780));
    (22698534952092941, 1192537242194213786, (18294386257355167, 961151765126163843));
    (22698534952092941, 596268621097106893, (13890237562617393, 364883144029056950));
    (31506832341568489, 413827049082578418, (13890237562617393, 182441572014528475));
    (33539608410825227, 2202632912373899097, (11857461493360655, 778710193111635368));
    (31506832341568489, 1034567622706446045, (11857461493360655, 389355096555817684));
    (27441280203055013, 450534977872719519, (11857461493360655, 194677548277908842));
    (34555757099071406, 2836707534197324121, (2371492298672131, 194677548277908842));
    (35910622016732978, 1473964696251962227, (2371492298672131, 97338774138954421));
    (33539129718060847, 688312961056503903, (4742984597344262, 97338774138954421));
    (28796145120716585, 295487093458774741, (9485969194688524, 97338774138954421));
    (34217136608208889, 1755568705543091056, (9485969194688524, 486693870694772105));
    (34217136608208889, 877784352771545528, (18971938389377048, 486693870694772105));
    (34217136608208889, 438892176385772764, (3726740170545207, 47801694308999341));
    (14432202677392597, 925586047080544869, (23511674101361499, 1507883306393315656));
    (28864405354785194, 925586047080544869, (23511674101361499, 753941653196657828));
    (34217136608208889, 548615220482215955, (23511674101361499, 376970826598328914));
    (29934951605469933, 2399787314643305693, (27793859104100455, 2228142920759418652));
    (32076044106839411, 1285715854263596367, (27793859104100455, 1114071460379709326));
    (8564370005477912, 171644393883887041, (27793859104100455, 557035730189854663));
    (17128740010955824, 171644393883887041, (19229489098622543, 192695668152983811));
    (25240685467938185, 1264664579994499597, (11117543641640182, 557035730189854663));
    (14123141826298003, 353814424902322467, (22235087283280364, 557035730189854663));
    (28246283652596006, 353814424902322467, (8111945456982361, 101610652643766098));
    (16165680735227819, 1012460807735943228, (28304493831332909, 1772717843213330087));
    (16165680735227819, 506230403867971614, (24277626192210180, 760257035477386859));
    (16165680735227819, 253115201933985807, (32389571649192541, 507141833543401052));
    (16165680735227819, 1265576009669929035, (25876731212111891, 2025833045147315894));
    (32331361470455638, 1265576009669929035, (25876731212111891, 1012916522573657947));
    (6454630258343747, 126329743548135544, (32389571649192541, 633927291929251315));
    (33633929557871768, 3291409054817244929, (9059766433176007, 886586779025522403));
    (24574163124695761, 1202411137895861263, (18119532866352014, 886586779025522403));
    (6454630258343747, 157912179435169430, (29784435474360281, 728674599590352973));
    (6454630258343747, 78956089717584715, (33750349915345574, 412850240720014113));
    (23532108654762857, 1439279407048615408, (17077478396419110, 1044498958460691833));
    (23532108654762857, 719639703524307704, (34154956792838220, 1044498958460691833));
    (23532108654762857, 359819851762153852, (21245696276150726, 324859254936384129));
    (23532108654762857, 1799099258810769260, (13661982717135288, 1044498958460691833));
    (23532108654762857, 899549629405384630, (27323965434270576, 1044498958460691833));
    (23532108654762857, 449774814702692315, (31115822213778295, 594724143757999518));
    (35978437540274175, 3438322361029460611, (6223164442755659, 594724143757999518));
    (34617888424014396, 1654149929755462057, (6223164442755659, 297362071878999759));
    (28394723981258737, 678393928938231149, (12446328885511318, 297362071878999759));
    (15948395095747419, 190515928529615695, (24892657771022636, 297362071878999759));
    (8168210573354011, 487878000408615454, (33060868344376647, 1974688359803614249));
    (8168210573354011, 243939000204307727, (33448894395337250, 998932358986383341));
    (16336421146708022, 243939000204307727, (25280683821983239, 377496679391037807));
    (31194410599129483, 2329008681025499623, (14857989452421461, 1109313680003960988));
    (32672842293416044, 1219695001021538635, (14857989452421461, 554656840001980494));
    (35629705681989166, 665038161019558141, (14857989452421461, 277328420000990247));
    (33870322150756463, 3160993941028470364, (14857989452421461, 1386642100004951235));
    (33870322150756463, 1580496970514235182, (29715978904842922, 1386642100004951235));
    (33870322150756463, 790248485257117591, (25561635658929381, 596393614747833644));
    (16617372983654164, 193854870509283947, (25561635658929381, 298196807373916822));
    (8435801728516709, 492051677883200769, (33997437387446090, 1983035714752784879));
    (16871603457033418, 492051677883200769, (25561635658929381, 745492018434792055));
    (33743206914066836, 492051677883200769, (8690032201895963, 126720170275795643));
    (15235289206005927, 1110823526042197181, (27197949909956872, 1983035714752784879));
    (30470578412011854, 1110823526042197181, (11962660703950945, 436106094355293849));
    (18507917708060909, 337358715843451666, (23925321407901890, 436106094355293849));
    (32863110552802043, 2995111862283139877, (4785064281580378, 436106094355293849));
    (28078046271221665, 1279502883963923014, (9570128563160756, 436106094355293849));
    (28078046271221665, 639751441981961507, (19140257126321512, 436106094355293849));
    (8937789144900153, 101822673813333829, (29342725107742871, 334283420541960020));
    (11231218508488666, 639751441981961507, (35987084889054511, 2049892398861176883));
    (22462437016977332, 639751441981961507, (24755866380565845, 705070478439607688));
    (20169007653388819, 287216202762157663, (24755866380565845, 352535239219803844));
    (35022527481728326, 2493686731470199847, (4951173276113169, 352535239219803844));
    (35386842030664469, 1259813394200886393, (4951173276113169, 176267619609901922));
    (31164297852423586, 554742915761278705, (4951173276113169, 88133809804950961));
    (31978960606273196, 2846221970690003691, (4951173276113169, 440669049024754805));
    (27027787330160027, 1202776460832624443, (9902346552226338, 440669049024754805));
    (17125440777933689, 381053705903934819, (19804693104452676, 440669049024754805));
    (34250881555867378, 381053705903934819, (2679252326518987, 29807671560409993));
    (7386026776477273, 410861377464344812, (32223359432428079, 1792483867659429213));
    (7386026776477273, 205430688732172406, (34902611758947066, 970761112730739589));
    (7386026776477273, 102715344366086203, (32875089635507767, 457184390900308574));
    (7386026776477273, 513576721830431015, (30210303611828827, 2100629900757687822));
    (14772053552954546, 513576721830431015, (30210303611828827, 1050314950378843911));
    (29544107105909092, 513576721830431015, (15438250058874281, 268369114274206448));
    (29544107105909092, 2567883609152155075, (14905292854138493, 1295522557935068478));
    (29277628503541198, 1272361051217086597, (14905292854138493, 647761278967534239));
    (14372335649402705, 312299886124776179, (29810585708276986, 647761278967534239));
    (28744671298805410, 312299886124776179, (15438250058874281, 167730696421379030));
    (32685052838157527, 1775553140481223687, (26936118578396445, 1463253254356447508));
    (11497868519522164, 312299886124776179, (26936118578396445, 731626627178223754));
    (22995737039044328, 312299886124776179, (26936118578396445, 365813313589111877));
    (33770184470402906, 2293126057802104649, (5387223715679289, 365813313589111877));
    (28382960754723617, 963656372106496386, (10774447431358578, 365813313589111877));
    (28382960754723617, 481828186053248193, (21548894862717156, 365813313589111877));
    (18605929068575017, 1579268126820583824, (21548894862717156, 1829066567945559385));
    (18605929068575017, 789634063410291912, (24491860656859295, 1039432504535267473));
    (18605929068575017, 394817031705145956, (30377792245143573, 644615472830121517));
    (18605929068575017, 197408515852572978, (23543726353137112, 249798441124975561));
    (18605929068575017, 987042579262864890, (19593488525487436, 1039432504535267473));
    (18605929068575017, 493521289631432445, (20581047982399855, 545911214903835028));
    (16630810154750179, 220565682179514931, (20581047982399855, 272955607451917514));
    (33095648540670063, 2194650840705244711, (4116209596479971, 272955607451917514));
    (33261620309500358, 1102828410897574655, (4116209596479971, 136477803725958757));
    (29145410713020387, 483175303585807949, (8232419192959942, 136477803725958757));
    (33062454186904004, 2740562055609079739, (20647436689931973, 1711475537119436762));
    (24830034993944062, 1029086518489642977, (20647436689931973, 855737768559718381));
    (4182598304012089, 86674374964962298, (32929676771839768, 682389018629793785));
    (4182598304012089, 43337187482481149, (32398567111582824, 335691518769944593));
    (18190988673550414, 942412143524680679, (32199379043088739, 1668138349636955613));
    (22373586977562503, 579549040468543212, (14008390369538325, 362863103056137467));
    (22373586977562503, 289774520234271606, (28016780739076650, 362863103056137467));
    (33580299273193163, 2174598807283632964, (5603356147815330, 362863103056137467));
    (33580299273193163, 1087299403641816482, (11206712295630660, 362863103056137467));
    (33580299273193163, 543649701820908241, (22413424591261320, 362863103056137467));
    (33580299273193163, 2718248509104541205, (4482684918252264, 362863103056137467));
    (29097614354940899, 1177692703024201869, (8965369836504528, 362863103056137467));
    (20132244518436371, 407414799984032201, (17930739673009056, 362863103056137467));
    (2201504845427315, 22275848463947367, (35861479346018112, 362863103056137467));
    (440300969085463, 22275848463947367, (35861479346018112, 1814315515280687335));
    (880601938170926, 22275848463947367, (35421178376932649, 896019833408369984));
    (1761203876341852, 22275848463947367, (35421178376932649, 448009916704184992));
    (30802628128424712, 1947970606064371537, (22661670127233071, 1433133143968344444));
    (16281916002383282, 514837462096027093, (22661670127233071, 716566571984172222));
    (32563832004766564, 514837462096027093, (22661670127233071, 358283285992086111));
    (33706770553632998, 2664537178048543759, (22661670127233071, 1791416429960430555));
    (11045100426399927, 436560374044056602, (34278239828066215, 1354856055916373953));
    (11045100426399927, 218280187022028301, (35421178376932649, 700015494850289050));
    (24756396357626413, 2446256991026515458, (13711295931226486, 1354856055916373953));
    (24756396357626413, 1223128495513257729, (27422591862452972, 1354856055916373953));
    (33515619686293472, 827945814303909057, (2666195504826559, 65863780201558112));
    (35036893314668236, 432763133094560385, (2666195504826559, 32931890100779056)) ].

Definition dinv_certs : list (Z * Z * (Z * Z)) :=
  [ (1, 1, (36028797018963968, 36028797018963969));
    (1, 2, (36028797018963968, 72057594037927937));
    (1, 4, (36028797018963968, 144115188075855873));
    (1, 8, (36028797018963968, 288230376151711745));
    (1, 16, (36028797018963968, 576460752303423489));
    (1, 32, (36028797018963968, 1152921504606846977));
    (1, 64, (36028797018963968, 2305843009213693953));
    (5, 64, (36028797018963966, 461168601842738765));
    (5, 128, (36028797018963968, 922337203685477581));
    (5, 256, (36028797018963964, 1844674407370954957));
    (25, 256, (36028797018963954, 368934881474190889));
    (25, 512, (36028797018963952, 737869762948381737));
    (25, 1024, (36028797018963951, 1475739525896763433));
    (25, 2048, (36028797018963963, 2951479051793527849));
    (125, 2048, (36028797018963888, 590295810358704341));
    (125, 4096, (36028797018963944, 1180591620717410517));
    (125, 8192, (36028797018963847, 2361183241434814677));
    (625, 8192, (36028797018963722, 472236648286961297));
    (625, 16384, (36028797018963736, 944473296573922961));
    (625, 32768, (36028797018963743, 1888946593147846289));
    (3125, 32768, (36028797018961868, 377789318629549597));
    (3125, 65536, (36028797018962184, 755578637259105821));
    (3125, 131072, (36028797018962342, 1511157274518218269));
    (3125, 262144, (36028797018962421, 3022314549036443165));
    (15625, 262144, (36028797018962421, 604462909807288633));
    (15625, 524288, (36028797018957773, 1208925819614421305));
    (15625, 1048576, (36028797018955449, 2417851639228686649));
    (78125, 1048576, (36028797018892949, 483570327844898469));
    (78125, 2097152, (36028797018938662, 967140655691024037));
    (78125, 4194304, (36028797018922456, 1934281311381178021));
    (390625, 4194304, (36028797018609956, 386856262272880161));
    (390625, 8388608, (36028797018679978, 773712524547264033));
    (390625, 16777216, (36028797018714989, 1547425049096031777));
    (390625, 33554432, (36028797018927807, 3094850098210344481));
    (1953125, 33554432, (36028797017755932, 618970019621936237));
    (1953125, 67108864, (36028797018643591, 1237940039274372205));
    (1953125, 134217728, (36028797018110858, 2475880078512135277));
    (9765625, 134217728, (36028797010298358, 495176015595052873));
    (9765625, 268435456, (36028797011008554, 990352031209627465));
    (9765625, 536870912, (36028797011363652, 1980704062438776649));
    (48828125, 536870912, (36028796991832402, 396140812273006965));
    (48828125, 1073741824, (36028796982244326, 792281624335169909));
    (48828125, 2147483648, (36028796977450288, 1584563248459495797));
    (48828125, 4294967296, (36028796975053269, 3169126496708147573));
    (244140625, 4294967296, (36028796828568894, 633825296764649137));
    (244140625, 8589934592, (36028796851784447, 1267650594346122929));
    (244140625, 17179869184, (36028796985462536, 2535301198099005105));
    (1220703125, 17179869184, (36028796985462536, 507060239619801021));
    (1220703125, 34359738368, (36028796686090643, 1014120470813032381));
    (1220703125, 68719476736, (36028795926053134, 2028240898839756733));
    (6103515625, 68719476736, (36028792263943759, 405648138536265305));
    (6103515625, 137438953472, (36028791273573442, 811296254771373657));
    (6103515625, 274877906944, (36028793830146096, 1622592624680543833));
    (6103515625, 549755813888, (36028795108432423, 3245185364498884185));
    (30517578125, 549755813888, (36028795108432423, 649037072899776837));
    (30517578125, 1099511627776, (36028786592302149, 1298073838973624645));
    (30517578125, 2199023255552, (36028782334237012, 2596147371121320261));
    (152587890625, 2199023255552, (36028690781502637, 519228154810310721));
    (152587890625, 4398046511104, (36028795463993506, 1038459326887993409));
    (152587890625, 8796093022208, (36028771511293628, 2076917272996847681));
    (762939453125, 8796093022208, (36028466335512378, 415379936162160653));
    (762939453125, 17592186044416, (36028759534943689, 830766633042911245));
    (762939453125, 35184372088832, (36028524664932782, 1661522434618368013));
    (762939453125, 70368744177664, (36028788699653891, 3323069222141370381));
    (3814697265625, 70368744177664, (36025736941841391, 664557549432931945));
    (3814697265625, 140737488355328, (36027776307834758, 1329190338190968425));
    (3814697265625, 281474976710656, (36026888642198629, 2658315178218686057));
    (19073486328125, 281474976710656, (36019259247667379, 531550445653052949));
    (19073486328125, 562949953421312, (36024537460747752, 1063256676659482133));
    (19073486328125, 1125899906842624, (36017639824123876, 2126106188718919189));
    (95367431640625, 1125899906842624, (35998566337795751, 424996057762415313));
    (95367431640625, 2251799813685248, (35976044033155688, 849460322642084561));
    (95367431640625, 4503599627370496, (36012466596655969, 1700640652215108305));
    (95367431640625, 9007199254740992, (35982994162585797, 3398497711733785297));
    (476837158203125, 9007199254740992, (35887626730945172, 677898102495808861));
    (476837158203125, 18014398509481984, (35586788218988211, 1344430847346642269));
    (476837158203125, 36028797018963968, (35674787542111293, 2695510735557791069));
    (2384185791015625, 36028797018963968, (34244276067501918, 517484868900179833));
    (2384185791015625, 72057594037927936, (33811438570860334, 1021888027165675385));
    (2384185791015625, 144115188075855872, (35979205613555167, 2174809531772522361));
    (11920928955078125, 144115188075855872, (28826648240508292, 348492793508990949));
    (11920928955078125, 288230376151711744, (26334253075332271, 636723169660702693));
    (11920928955078125, 576460752303423488, (31048519970283323, 1501414298115837925));
    (11920928955078125, 1152921504606846976, (33405653417758849, 3230796555026108389));
    (14278062402553651, 276177892680255903, (31048519970283323, 600565719246335170));
    (14278062402553651, 552355785360511806, (22663291186418487, 876743611926591073));
    (18470676794486069, 1429099397287102879, (22663291186418487, 1753487223853182146));
    (10085448010621233, 156064748830988869, (31048519970283323, 480452575397068136));
    (30652432001073511, 948646821890034743, (20566983990452278, 636517324228057005));
    (30652432001073511, 1897293643780069486, (10283491995226139, 636517324228057005));
    (29860256062653887, 369652065632732674, (10283491995226139, 127303464845611401));
    (30355366024166152, 751562460169566877, (10283491995226139, 254606929691222802));
    (35744667002535354, 1769990178934458085, (10283491995226139, 509213859382445604));
    (28155825496493816, 2788417897699349293, (10283491995226139, 1018427718764891208));
    (17872333501267677, 353998035786891617, (33545126474863018, 664429682977999591));
    (34644896738699186, 1372425754551782825, (16772563237431509, 664429682977999591));
    (17322448369349593, 1372425754551782825, (34095011606781102, 2701285120507782007));
    (17322448369349593, 274485150910356565, (31895471079108766, 505403913224929487));
    (17322448369349593, 548970301820713130, (33270183908903976, 1054374215045642617));
    (17322448369349593, 1097940603641426260, (33957540323801581, 2152314818687068877));
    (17322448369349593, 219588120728285252, (31208114664211161, 395609852860786861));
    (17322448369349593, 439176241456570504, (24265281516780377, 615197973589072113));
    (17322448369349593, 878352482913141008, (20793864943064985, 1054374215045642617));
    (10379615221918809, 105261803729627558, (27736698090495769, 281283535862129167));
    (29437771878126098, 597068947051011841, (19058156656207289, 386545339591756725));
    (33777042595270338, 1370159626234525291, (19058156656207289, 773090679183513450));
    (16888521297635169, 1370159626234525291, (35946677953842458, 2916340984601552191));
    (27268136519553978, 442450811214309151, (19058156656207289, 309236271673405380));
    (32692224915984278, 1060923354561119911, (19058156656207289, 618472543346810760));
    (35404269114199428, 2297868441254741431, (19058156656207289, 1236945086693621520));
    (24556092321338828, 318756302544946999, (19058156656207289, 247389017338724304));
    (31336202816876703, 813534337222395607, (19058156656207289, 494778034677448608));
    (25197179736541996, 1308312371899844215, (19058156656207289, 989556069354897216));
    (25197179736541996, 261662474379968843, (19699244071410457, 204568646214990687));
    (12598589868270998, 261662474379968843, (32297833939681455, 670799766809950217));
    (6299294934135499, 261662474379968843, (32297833939681455, 1341599533619900434));
    (6299294934135499, 523324948759937686, (31897154305179475, 2649911905519744649));
    (31496474670677495, 523324948759937686, (6699974568637479, 111322422095998781));
    (31496474670677495, 1046649897519875372, (19098224619657487, 634647370855936467));
    (25297349645167491, 1681297268375811839, (19098224619657487, 1269294741711872934));
    (6199125025510004, 82400505332787781, (33499872843187395, 445289688383995124));
    (3099562512755002, 82400505332787781, (33499872843187395, 890579376767990248));
    (1549781256377501, 82400505332787781, (35049654099564896, 1863559258868768277));
    (7748906281887505, 82400505332787781, (31950091586809894, 339751649640638543));
    (7748906281887505, 164801010665575562, (31472858357179957, 669353670971789667));
    (35108694883308741, 1493358724299667477, (27359788601421236, 1163756702968516353));
    (35108694883308741, 2986717448599334954, (13679894300710618, 1163756702968516353));
    (32813543390614412, 558293510601059427, (5930988018823113, 100910532061242821));
    (28268747732953432, 961935638846030711, (34199735751776545, 1163756702968516353));
    (14134373866476716, 961935638846030711, (34199735751776545, 2327513405937032706));
    (30541145561783922, 415704532009629913, (20065361885299829, 273115553418200399));
    (35335934666191790, 961935638846030711, (20065361885299829, 546231106836400798));
    (17667967333095895, 961935638846030711, (20065361885299829, 1092462213672801596));
    (35597156516992927, 387618709608238817, (2397394552203934, 26105314965354177));
    (35597156516992927, 775237419216477634, (1198697276101967, 26105314965354177));
    (35179688761974985, 1532291553211748767, (1198697276101967, 52210629930708354));
    (21785284847344377, 1897765962726707245, (22983982123446344, 2002187222588123953));
    (21785284847344377, 379553192545341449, (27778771227854212, 483974452406758157));
    (21785284847344377, 759106385090682898, (35674670461271483, 1243080837497441055));
    (21785284847344377, 1518212770181365796, (28729977654307930, 2002187222588123953));
    (951206426453718, 13257882592218265, (35674670461271483, 497232334998976422));
    (475603213226859, 13257882592218265, (35674670461271483, 994464669997952844));
    (18075136837249171, 1007722552590171109, (35674670461271483, 1988929339995905688));
    (475603213226859, 5303153036887306, (35681314665157070, 397859953348130919));
    (475603213226859, 10606306073774612, (35913579435199177, 800899584151566175));
    (22475020243254749, 1002419399553283803, (21999417030027890, 981206787405734579));
    (22475020243254749, 2004838799106567606, (33474728758268694, 2986045586512302185));
    (11950914941467663, 213211447199186295, (33474728758268694, 597209117302460437));
    (28688279320602010, 1023632011700833027, (16737364379134347, 597209117302460437));
    (31081504039435352, 2218050246305753901, (16737364379134347, 1194418234604920874));
    (11950914941467663, 170569157759349036, (35867953477102036, 511924538422785919));
    (29884891680018681, 853062853941483991, (17933976738551018, 511924538422785919));
    (29884891680018681, 1706125707882967982, (8966988369275509, 511924538422785919));
    (2983926572192154, 34070418522922045, (35883162129801083, 409713282854019784));
    (1491963286096077, 34070418522922045, (35883162129801083, 819426565708039568));
    (24655415852332888, 1126060332414337973, (23163452566236811, 1057919495368493883));
    (12327707926166444, 1126060332414337973, (35491160492403255, 3241899323151325739));
    (1491963286096077, 27256334818337636, (34783200481102834, 635446305684260525));
    (30819269815416110, 1126060332414337973, (29327306529320033, 1071547662777662701));
    (15409634907708055, 1126060332414337973, (29327306529320033, 2143095325555325402));
    (32311233101512187, 472229200820405298, (12425708335515901, 181601930773527377));
    (22368470718514044, 653831131593932675, (34794179054029945, 1017034993140987429));
    (11184235359257022, 653831131593932675, (34794179054029945, 2034069986281974858));
    (11184235359257022, 130766226318786535, (28575835599808439, 334109044137749903));
    (5592117679628511, 130766226318786535, (34167953279436950, 798984314594286341));
    (5592117679628511, 261532452637573070, (33860329678604008, 1583581672507005551));
    (5592117679628511, 523064905275146140, (33706517878187537, 3152776388332443971));
    (5592117679628511, 104612981055029228, (34321765079853421, 642064843011742499));
    (5592117679628511, 209225962110058456, (31141176738997988, 1165129748286888639));
    (5592117679628511, 418451924220116912, (32346941408384527, 2420485520947239375));
    (27960588398142555, 418451924220116912, (32346941408384527, 484097104189447875));
    (27960588398142555, 836903848440233824, (30153764903263541, 902549028409564787));
    (27960588398142555, 1673807696880467648, (29057176650703048, 1739452876849798611));
    (26864000145582062, 321632503382227337, (32346941408384527, 387277683351558300));
    (13432000072791031, 321632503382227337, (32346941408384527, 774555366703116600));
    (13432000072791031, 643265006764454674, (22889470740587779, 1096187870085343937));
    (31592735479480436, 3025982890378707959, (18160735406689405, 1739452876849798611));
    (8703264738892657, 166721430041604017, (32346941408384527, 619644293362493280));
    (29228367812531249, 1119808583487305331, (20525103073638592, 786365723404097297));
    (29228367812531249, 2239617166974610662, (10262551536819296, 786365723404097297));
    (18965816275711953, 290650288714102673, (32346941408384527, 495715434689994624));
    (18965816275711953, 581300577428205346, (25656378842048240, 786365723404097297));
    (31794005696736073, 1948966878260507989, (12828189421024120, 786365723404097297));
    (6137626854687833, 75247086290462679, (33452812831681435, 410130291951783902));
    (6137626854687833, 150494172580925358, (32070473552560300, 786365723404097297));
    (22172863630967983, 1087354068565948013, (16035236776280150, 786365723404097297));
    (30190482019108058, 2961073860535993323, (8017618388140075, 786365723404097297));
    (34448117340343649, 675732303555859778, (1879991533452242, 36877806616079173));
    (35388113107069770, 1388342413727798729, (939995766726121, 36877806616079173));
    (18634052320261006, 1462098026959957075, (19574048086987127, 1535853640192115421));
    (18634052320261006, 292419605391991415, (23334031153891611, 366175218624149761));
    (9317026160130503, 292419605391991415, (32651057314022114, 1024770042640290937));
    (9317026160130503, 584839210783982830, (34959580977272063, 2194448464208256597));
    (9317026160130503, 116967842156796566, (35042512484402770, 439930831856308107));
    (9317026160130503, 233935684313593132, (26838282402331888, 673866516169901239));
    (9317026160130503, 467871368627186264, (32053193521426950, 1609609253424273767));
    (34278785677546192, 344274280101557279, (4102115041035441, 41199029508542995));
    (21241507879808537, 426672339118643269, (25343622920843978, 509070398135729259));
    (33913319340230526, 1362415076373015797, (12671811460421989, 509070398135729259));
    (29628471130537252, 2380555872644474315, (12671811460421989, 1018140796271458518));
    (29628471130537252, 476111174528894863, (33730586171572693, 542029621742563655));
    (14814235565268626, 476111174528894863, (33730586171572693, 1084059243485127310));
    (7407117782634313, 476111174528894863, (33730586171572693, 2168118486970254620));
    (3305002741598872, 42487477134843939, (33730586171572693, 433623697394050924));
    (1652501370799436, 42487477134843939, (35383087542372129, 909734871922945787));
    (826250685399718, 42487477134843939, (35383087542372129, 1819469743845891574));
    (4131253426998590, 42487477134843939, (34556836856972411, 355396453342209527));
    (2065626713499295, 42487477134843939, (34556836856972411, 710792906684419054));
    (18311231785235853, 753280383819262993, (34556836856972411, 1421585813368838108));
    (18311231785235853, 1506560767638525986, (26434034321104132, 2174866197188101101));
    (34696541175101312, 570933166269120825, (8122802535868279, 133661085909915023));
    (33593875659287214, 1105577509908780917, (8122802535868279, 267322171819830046));
    (16796937829643607, 1105577509908780917, (24919740365511886, 1640221853548441009));
    (8674135293775328, 114186633253824165, (31939877385566067, 420457710385835927));
    (4337067646887664, 114186633253824165, (31939877385566067, 840915420771671854));
    (2168533823443832, 114186633253824165, (34108411209009899, 1796017474797167873));
    (2168533823443832, 22837326650764833, (33924425168088079, 357265895798983394));
    (1084266911721916, 22837326650764833, (35008692079809995, 737369118248731621));
    (542133455860958, 22837326650764833, (35550825535670953, 1497575563148228075));
    (271066727930479, 22837326650764833, (35821892263601432, 3017988452947220983));
    (1355333639652395, 22837326650764833, (35550825535670953, 599030225259291230));
    (1355333639652395, 45674653301529666, (34717083263490414, 1169963391528412055));
    (1355333639652395, 91349306603059332, (34977878947226342, 2357504377368183371));
    (6776668198261975, 91349306603059332, (30911878028269157, 416691291511801075));
    (6776668198261975, 182698613206118664, (32397609509789516, 873437824527097735));
    (22975472953156733, 1238835050939335063, (16198804754894758, 873437824527097735));
    (33883340991309875, 365397226412237328, (16198804754894758, 174687564905419547));
    (33883340991309875, 730794452824474656, (8099402377447379, 174687564905419547));
    (29090774061826006, 1254857147540733297, (8099402377447379, 349375129810839094));
    (30744191785807761, 2652357666784089673, (8099402377447379, 698750259621678188));
    (22644789408360382, 390721481432482297, (17852222478876513, 308028778189195891));
    (11322394704180191, 390721481432482297, (29174617183056704, 1006779037810874079));
    (11322394704180191, 781442962864964594, (25909703295708543, 1788222000675838673));
    (33757576309463828, 465972457940691315, (3264913887348161, 45067214989181897));
    (29938443704124558, 826510177854146491, (33203357591472719, 916644607832510285));
    (14969221852062279, 826510177854146491, (33203357591472719, 1833289215665020570));
    (8439394077365957, 93194491588138263, (33203357591472719, 366657843133004114));
    (20821375834419338, 459852334721142377, (33203357591472719, 733315686266008228));
    (10410687917209669, 459852334721142377, (33203357591472719, 1466631372532016456));
    (32217710671550863, 2846188376695443587, (21807022754341194, 1926483707253158833));
    (35297441947376793, 623651816989081049, (985646919921856, 17414873673717865));
    (35790265407337721, 1264718507651879963, (492823459960928, 17414873673717865));
    (35790265407337721, 2529437015303759926, (246411729980464, 17414873673717865));
    (35786111918039021, 505828694417744013, (246411729980464, 3482974734743573));
    (35909317783029253, 1015140363570231599, (123205864990232, 3482974734743573));
    (35970920715524369, 2033763701875206771, (61602932495116, 3482974734743573));
    (35847714850534137, 405359550481143925, (308014662475580, 3482974734743573));
    (36001722181771927, 814202075697031423, (154007331237790, 3482974734743573));
    (36001722181771927, 1628404151394062846, (77003665618895, 3482974734743573));
    (35981217012897946, 3254953352519311437, (77003665618895, 6965949469487146));
    (35827209681660156, 648204290716067429, (385018328094475, 6965949469487146));
    (36009466261270403, 1303003540847859153, (385018328094475, 13931898938974292));
    (33597975418461439, 2431487354904776805, (33982993746555914, 2459351152782725389));
    (33597975418461439, 486297470980955361, (35523067058933814, 514161268858903945));
    (33597975418461439, 972594941961910722, (17761533529466907, 514161268858903945));
    (33597975418461439, 1945189883923821444, (25679754473964173, 1486756210820814667));
    (21829571193019423, 252769165559445199, (17761533529466907, 205664507543561578));
    (19795552361243165, 458433673103006777, (17761533529466907, 411329015087123156));
    (18778542945355036, 869762688190129933, (17761533529466907, 822658030174246312));
    (9389271472677518, 869762688190129933, (27150805002144425, 2515078748538622557));
    (10406280888565647, 192794400844379435, (26133795586256296, 484173886501371063));
    (23473178681693795, 869762688190129933, (13066897793128148, 484173886501371063));
    (23473178681693795, 1739525376380259866, (30006627578257869, 2223699262881630929));
    (10406280888565647, 154235520675503548, (32667244482820370, 484173886501371063));
    (26739903129975832, 792644927852378159, (16333622241410185, 484173886501371063));
    (13369951564987916, 792644927852378159, (29703573806398101, 1760992700855120285));
    (7442610212143378, 88247847510330045, (29703573806398101, 352198540171024057));
    (33424878912469790, 792644927852378159, (29703573806398101, 704397080342048114));
    (16712439456234895, 792644927852378159, (29703573806398101, 1408794160684096228));
    (16712439456234895, 1585289855704756318, (23208006631316498, 2201439088536474387));
    (3721305106071689, 70598278008264036, (32477835875408015, 616149232831718069));
    (21820875596811541, 827944066856510177, (18099570490739852, 686747510839982105));
    (21820875596811541, 1655888133713020354, (30870660842181467, 2342635644553002459));
    (27656310775728371, 419742614201052565, (9049785245369926, 137349502167996421));
    (32181203398413334, 976834730570101551, (4524892622684963, 137349502167996421));
    (34190172189946519, 2075630747914072919, (4524892622684963, 274699004335992842));
    (25140386944576593, 305246547848417447, (22624463113424815, 274699004335992842));
    (23882425029000704, 579945552184410289, (22624463113424815, 549398008671985684));
    (11941212514500352, 579945552184410289, (34565675627925167, 1678741569528381657));
    (5970606257250176, 579945552184410289, (34565675627925167, 3357483139056763314));
    (29853031286250880, 579945552184410289, (28595069370674991, 555507517374470605));
    (14926515643125440, 579945552184410289, (28595069370674991, 1111015034748941210));
    (7463257821562720, 579945552184410289, (28595069370674991, 2222030069497882420));
    (8721219737138609, 135539538284833805, (28595069370674991, 444406013899576484));
    (18658144553906800, 579945552184410289, (28595069370674991, 888812027799152968));
    (9329072276953400, 579945552184410289, (28595069370674991, 1777624055598305936));
    (8721219737138609, 108431630627867044, (29202921910489782, 363082290928676201));
    (23322680692383500, 579945552184410289, (14601460955244891, 363082290928676201));
    (11661340346191750, 579945552184410289, (26262801301436641, 1306110134041762691));
    (5830670173095875, 579945552184410289, (32093471474532516, 3192165820267935671));
    (29153350865479375, 579945552184410289, (8770790782149016, 174476722306058903));
    (29153350865479375, 1159891104368820578, (33538746256553883, 1334367826674879481));
    (31346048561016629, 2494258931043700059, (33538746256553883, 2668735653349758962));
    (24767955474404867, 394165752825104670, (35731443952091137, 568642475131163573));
    (30249699713248002, 962808227956268243, (35731443952091137, 1137284950262327146));
    (15124849856624001, 962808227956268243, (35731443952091137, 2274569900524654292));
    (24767955474404867, 315332602260083736, (26088338334310271, 332143023436100771));
    (24767955474404867, 630665204520167472, (25428146904357569, 647475625696184507));
    (25098051189381218, 1278140830216351979, (25428146904357569, 1294951251392369014));
    (35704221473338618, 363653918241025275, (330095714976351, 3362084235203407));
    (36007375060368614, 733483184113400045, (330095714976351, 6724168470406814));
    (31537611844214698, 1284864998686758793, (31867707559191049, 1298313335627572421));
    (15768805922107349, 1284864998686758793, (31867707559191049, 2596626671255144842));
    (31207516129238347, 508566664698378066, (16428997352060051, 267731669290002661));
    (31207516129238347, 1017133329396756132, (23818256740649199, 776298333988380727));
    (27512886434943773, 1793431663385136859, (23818256740649199, 1552596667976761454));
    (3694629694294574, 48166999081675081, (34114800734470793, 444755689098234591));
    (1847314847147287, 48166999081675081, (35962115581618080, 937678377278144263));
    (1847314847147287, 96333998163350162, (34606891415134623, 1804684360748295721));
    (9236574235736435, 96333998163350162, (29064946873692762, 303136473251649047));
    (33005621908319251, 688472465905049695, (23769047672582816, 495804469578349371));
    (33005621908319251, 1376944931810099390, (11884523836291408, 495804469578349371));
    (33005621908319251, 2753889863620198780, (5942261918145704, 495804469578349371));
    (33005621908319251, 550777972724039756, (29711309590728520, 495804469578349371));
    (33005621908319251, 1101555945448079512, (14855654795364260, 495804469578349371));
    (33005621908319251, 2203111890896159024, (7427827397682130, 495804469578349371));
    (3294312317590731, 43978802516552308, (33844824670819919, 451825667061797063));
    (21863880811796056, 583762074611453987, (18569568494205325, 495804469578349371));
    (10931940405898028, 583762074611453987, (29501508900103353, 1575371013768152729));
    (31746817764568249, 339053955884307134, (7637628088307297, 81569372909048951));
    (27329851014745070, 583762074611453987, (34967479103052367, 746900820429551889));
    (13664925507372535, 583762074611453987, (34967479103052367, 1493801640859103778));
    (24316202305212451, 2077563715470557765, (34967479103052367, 2987603281718207556));
    (24316202305212451, 415512743094111553, (28940181683987129, 494526823153538238));
    (24316202305212451, 831025486188223106, (26628191994599790, 910039566247649791));
    (24316202305212451, 1662050972376446212, (13314095997299895, 910039566247649791));
    (34202624335076729, 467560717914860355, (2311989689387339, 31605632023770674));
    (29817255459168729, 815222670176337769, (32129245148556068, 878433934223879117));
    (29817255459168729, 1630445340352675538, (16064622574278034, 878433934223879117));
    (11440643195503356, 125117775606742745, (34441234837943407, 376658079308568186));
    (5720321597751678, 125117775606742745, (34441234837943407, 753316158617136372));
    (2860160798875839, 125117775606742745, (34441234837943407, 1506632317234272744));
    (24371019416161301, 2132221195267986469, (21510858617285462, 1881985644054500979));
    (2860160798875839, 50047110242697098, (33190112315655496, 580760777744376431));
    (2860160798875839, 100094220485394196, (33756020951082782, 1181326100656741607));
    (28318653671044747, 1982079864539895175, (25458492872168908, 1781891423569106783));
    (28318653671044747, 396415972907979035, (14017849676665552, 196227531937190643));
    (28318653671044747, 792831945815958070, (35327578509377523, 989059477753148713));
    (28318653671044747, 1585663891631916140, (31823116090211135, 1781891423569106783));
    (28318653671044747, 317132778326383228, (17522312095831940, 196227531937190643));
    (28318653671044747, 634265556652766456, (8761156047915970, 196227531937190643));
    (28318653671044747, 1268531113305532912, (32699231695002732, 1464758645242723555));
    (28318653671044747, 2537062226611065824, (16349615847501366, 1464758645242723555));
    (27145957422714173, 486400123271252847, (16349615847501366, 292951729048544711));
    (35320765346464856, 1265751975591050405, (8174807923750683, 292951729048544711));
    (34009998520733794, 2437558891785229249, (8174807923750683, 585903458097089422));
    (17660382673232428, 253150395118210081, (23213656945520987, 332753062978879341));
    (8830191336616214, 253150395118210081, (32043848282137201, 918656521075968763));
    (4415095668308107, 253150395118210081, (32043848282137201, 1837313042151937526));
    (22075478341540535, 253150395118210081, (27628752613829094, 316832529406745489));
    (35889854648455082, 823133319643165651, (13814376306914547, 316832529406745489));
    (17944927324227541, 823133319643165651, (31759303631142088, 1456798378456656629));
    (33824579139798585, 3103065017742987931, (15879651815571044, 1456798378456656629));
    (20010202832884038, 367146980023201195, (29694028122485591, 544825699216727717));
    (10005101416442019, 367146980023201195, (29694028122485591, 1089651398433455434));
    (29854666185905824, 2191092338503059019, (19849564769463805, 1456798378456656629));
    (10005101416442019, 146858792009280478, (29212113932224892, 428786834391693283));
    (10005101416442019, 293717584018560956, (34616259798996484, 1016222002428815195));
    (10005101416442019, 587435168037121912, (27313231315940261, 1603657170465937107));
    (32717377182711853, 384190767551358873, (17308129899498242, 203244400485763039));
    (32717377182711853, 768381535102717746, (8654064949749121, 203244400485763039));
    (29339786015979608, 1378114736560006863, (8654064949749121, 406488800971526078));
    (23323957957738925, 2191092338503059019, (31978022907488046, 3004069940446111175));
    (20685721066230487, 388650374235392314, (31978022907488046, 600813988089222235));
    (20685721066230487, 777300748470784628, (15989011453744023, 600813988089222235));
    (34326377713731278, 2579742712738451333, (15989011453744023, 1201627976178444470));
    (27730785484960183, 416812355617251287, (15989011453744023, 240325595235688894));
    (21859898469352103, 657137950852940181, (15989011453744023, 480651190471377788));
    (34913466415292086, 2099091522267073545, (15989011453744023, 961302380942755576));
    (34913466415292086, 419818304453414709, (10118124438135943, 121665772035926158));
    (17456733207646043, 419818304453414709, (27574857645781986, 663149848525267025));
    (17456733207646043, 839636608906829418, (31244162030537036, 1502786457432096443));
    (33078814222914561, 3182059675245755279, (15622081015268518, 1502786457432096443));
    (22960689784778618, 441746699791669203, (13787428822890993, 265259939410106810));
    (25267773715280302, 972266578611882823, (13787428822890993, 530519878820213620));
    (12633886857640151, 972266578611882823, (26421315680531144, 2033306336252310063));
    (35594576642418769, 547850675555711927, (13787428822890993, 212207951528085448));
    (24691002732654881, 760058627083797375, (13787428822890993, 424415903056170896));
    (24691002732654881, 1520117254167594750, (19239215777772937, 1184474530139968271));
    (24691002732654881, 304023450833518950, (22123070690900042, 272404177639411421));
    (24691002732654881, 608046901667037900, (35752538078104902, 880451079306449321));
    (24691002732654881, 1216093803334075800, (17876269039052451, 880451079306449321));
    (21283635885853666, 2096544882640525121, (17876269039052451, 1760902158612898642));
    (24691002732654881, 486437521333630320, (32345171231303687, 637232318639634161));
    (24691002732654881, 972875042667260640, (28518086981979284, 1123669839973264481));
    (24691002732654881, 1945750085334521280, (14259043490989642, 1123669839973264481));
    (24691002732654881, 389150017066904256, (21913211989638448, 345369805839455969));
    (24691002732654881, 778300034133808512, (35647608727474105, 1123669839973264481));
    (30169305730064493, 1901969874107072993, (35647608727474105, 2247339679946528962));
    (19212699735245269, 242246052485632211, (27391514987048060, 345369805839455969));
    (32908457228769299, 829861910810720391, (13695757493524030, 345369805839455969));
    (32908457228769299, 1659723821621440782, (6847878746762015, 345369805839455969));
    (12364820988483254, 124722880820614575, (34239393733810075, 345369805839455969));
    (6182410494241627, 124722880820614575, (34239393733810075, 690739611678911938));
    (32575723102509105, 1314354015781984813, (26393312608267478, 1064908254140755663));
    (32575723102509105, 2628708031563969626, (13196656304133739, 1064908254140755663));
    (6182410494241627, 99778304656491660, (35071229049460560, 566016730858297363));
    (6182410494241627, 199556609312983320, (29900435513213534, 965129949484264003));
    (21132628250848394, 1364243168110230643, (14950217756606767, 965129949484264003));
    (6182410494241627, 79822643725193328, (31474215323342446, 406371443407910707));
    (6182410494241627, 159645287450386656, (34284339144396104, 885307305759070675));
    (23324580066439679, 1204597880659843987, (17142169572198052, 885307305759070675));
    (30912052471208135, 319290574900773312, (17142169572198052, 177061461151814135));
    (30912052471208135, 638581149801546624, (8571084786099026, 177061461151814135));
    (35197594864257648, 1454223760754907383, (4285542393049513, 177061461151814135));
    (34740967004326876, 2870715449969420463, (4285542393049513, 354122922303628270));
    (32281936051000451, 533504162765473881, (4285542393049513, 70824584460725654));
    (35425908794223034, 1170925422912004767, (4285542393049513, 141649168921451308));
    (34855123969309569, 2304118774283615231, (4285542393049513, 283298337842902616));
    (30569581576260056, 404164087288142523, (21427711965247565, 283298337842902616));
    (15284790788130028, 404164087288142523, (21427711965247565, 566596675685805232));
    (7642395394065014, 404164087288142523, (29070107359312579, 1537357438659752987));
    (1499474216947477, 15859782098563421, (35213028536430116, 372444523091015681));
    (19105988485162535, 404164087288142523, (17606514268215058, 372444523091015681));
    (27909245619270064, 1180772697667300727, (8803257134107529, 372444523091015681));
    (22757879943742561, 1925661743849332089, (31561137077850090, 2670550790031363451));
    (5151365675527503, 87176730297053873, (33713554319482639, 570535585587923616));
    (29735191348560077, 1006419237073192981, (24583825673032574, 832065776479085235));
    (29735191348560077, 2012838474146385962, (12291912836516287, 832065776479085235));
    (25756828377637515, 348706921188215492, (12291912836516287, 166413155295817047));
    (31316283443593188, 847946387075666633, (12291912836516287, 332826310591634094));
    (27950054558312881, 1513599008258934821, (12291912836516287, 665652621183268188));
    (3366228885280307, 36458753178479689, (34529733100338979, 373982595755430676));
    (35779125419211178, 775028880718707255, (32412896533930871, 702111374361747877));
    (17889562709605589, 775028880718707255, (32412896533930871, 1404222748723495754));
    (25151229621768230, 2179251629442203009, (32412896533930871, 2808445497446991508));
    (17889562709605589, 310011552287482902, (18418771851207616, 319182315717305597));
    (17889562709605589, 620023104574965804, (27098948635209397, 939205420292271401));
    (17889562709605589, 1240046209149931608, (22494255672407493, 1559228524867237205));
    (21965046530805466, 304509094229589285, (22494255672407493, 311845704973447441));
    (33476778937810226, 928200504176484167, (22494255672407493, 623691409946894882));
    (16738389468905113, 928200504176484167, (22494255672407493, 1247382819893789764));
    (10982523265402733, 121803637691835714, (28779331017511900, 319182315717305597));
    (10982523265402733, 243607275383671428, (25372188774158683, 562789591100977025));
    (18177356019780708, 806396866484648453, (25372188774158683, 1125579182201954050));
    (9088678009890354, 806396866484648453, (34460866784049037, 3057555230888556553));
    (20071201275293087, 356165193603866833, (25372188774158683, 450231672880781620));
    (22721695024725885, 806396866484648453, (25372188774158683, 900463345761563240));
    (24046941899442284, 1706860212246211693, (25372188774158683, 1800926691523126480));
    (18745954400576688, 266118859027710509, (25372188774158683, 360185338304625296));
    (34745165974447027, 986489535636961101, (25372188774158683, 720370676609250592));
    (30058677374302855, 1706860212246211693, (25372188774158683, 1440741353218501184));
    (23432443000720860, 266118859027710509, (20685700174014511, 234924498838158135));
    (32401921674374941, 735967856704026779, (20685700174014511, 469848997676316270));
    (32401921674374941, 1471935713408053558, (26543810924194726, 1205816854380343049));
    (32401921674374941, 2943871426816107116, (13271905462097363, 1205816854380343049));
    (24988126962457793, 454058458098237017, (20685700174014511, 375879198141053016));
    (22836913568236152, 829937656239290033, (20685700174014511, 751758396282106032));
    (11418456784118076, 829937656239290033, (32104156958132587, 2333454448803502097));
    (13569670178339717, 197259235230731607, (29952943563910946, 435419185777826819));
    (28546141960295190, 829937656239290033, (14976471781955473, 435419185777826819));
    (14273070980147595, 829937656239290033, (29249542762103068, 1700776027794943671));
    (35491914008536197, 412750360012381262, (703400801807878, 8180143063272721));
    (35843614409440136, 833680863088035245, (351700400903939, 8180143063272721));
    (35506827249917018, 1651695169415307345, (35858527650820957, 1668055455541852787));
    (17753413624958509, 1651695169415307345, (35858527650820957, 3336110911083705574));
    (17753413624958509, 330339033883061469, (19511915629478204, 363059606136152353));
    (17753413624958509, 660678067766122938, (27509371439697611, 1023737673902275291));
    (17753413624958509, 1321356135532245876, (22631392532328060, 1684415741668398229));
    (7997455810219407, 119047384651988234, (32387350347067162, 482106990788140587));
    (24191130983752988, 720201760092117055, (16193675173533581, 482106990788140587));
    (12095565491876494, 720201760092117055, (28289240665410075, 1684415741668398229));
    (12095565491876494, 144040352018423411, (32586113900161929, 388052573502587530));
    (6047782745938247, 144040352018423411, (32586113900161929, 776105147005175060));
    (6047782745938247, 288080704036846822, (31412513814926582, 1496306907097292115));
    (6047782745938247, 576161408073693644, (33849605145278032, 3224791131318373047));
    (30238913729691235, 576161408073693644, (15706256907463291, 299261381419458423));
    (30238913729691235, 1152322816147387288, (22972585318577263, 875422789493152067));
    (26605749524134249, 2027745605640539355, (22972585318577263, 1750845578986304134));
    (26605749524134249, 405549121128107871, (35045678020483568, 534198215601980521));
    (26605749524134249, 811098242256215742, (17522839010241784, 534198215601980521));
    (26605749524134249, 1622196484512431484, (35367169029255141, 2156394700114412005));
    (26927240532905822, 328359664443784281, (35367169029255141, 431278940022882401));
    (13463620266452911, 328359664443784281, (35367169029255141, 862557880045764802));
    (24415394647854026, 1190917544489549083, (35367169029255141, 1725115760091529604));
    (12207697323927013, 1190917544489549083, (35367169029255141, 3450231520183059208));
    (14719543208978809, 287191954212145033, (23159471705328128, 451862795138702025));
    (26299279061642873, 1026246703562992091, (11579735852664064, 451862795138702025));
    (32089146987974905, 2504356202264686207, (5789867926332032, 451862795138702025));
    (33068640560569821, 516159903654397297, (5789867926332032, 90372559027740405));
    (35963574523735837, 1122692366336534999, (2894933963166016, 90372559027740405));
    (35963574523735837, 2245384732673069998, (1447466981583008, 90372559027740405));
    (35071174460378385, 437933552118261898, (1447466981583008, 18074511805548081));
    (35794907951169889, 893941616042071877, (723733490791504, 18074511805548081));
    (35794907951169889, 1787883232084143754, (361866745395752, 18074511805548081));
    (35975841323867765, 3593840975973835589, (180933372697876, 18074511805548081));
    (35252107833076261, 704308585750328653, (904666863489380, 18074511805548081));
    (35704441264820951, 1426691683306205387, (452333431744690, 18074511805548081));
    (35930607980693296, 2871457878417958855, (226166715872345, 18074511805548081));
    (35930607980693296, 574291575683591771, (1130833579361725, 18074511805548081));
    (34927807680772523, 1116526929850034201, (1130833579361725, 36149023611096162));
    (34991824320492999, 2237146661794015223, (1130833579361725, 72298047222192324));
    (32730157161769549, 418510113469926115, (5654167896808625, 72298047222192324));
    (30500498322906337, 780000349580887735, (5654167896808625, 144596094444384648));
    (35039836800283356, 1792173010691580271, (5654167896808625, 289192188888769296));
    (29385668903474731, 300596164360562195, (28270839484043125, 289192188888769296));
    (28828254193758928, 589788353249331491, (28270839484043125, 578384377777538592));
    (14414127096879464, 589788353249331491, (28270839484043125, 1156768755555077184));
    (7207063548439732, 589788353249331491, (35477903032482857, 2903325864359485859));
    (29385668903474731, 480953862976899512, (6649648838723929, 108834490272431979));
    (18017658871099330, 589788353249331491, (24667307709823259, 807457333794195449));
    (9008829435549665, 589788353249331491, (33676137145372924, 2204703020837722389));
    (2359180596825736, 30890078431920715, (35607424790445381, 466228039521648631));
    (1179590298412868, 30890078431920715, (35607424790445381, 932456079043297262));
    (589795149206434, 30890078431920715, (35607424790445381, 1864912158086594524));
    (589795149206434, 6178015686384143, (35896492993476311, 376010377668016061));
    (294897574603217, 6178015686384143, (35896492993476311, 752020755336032122));
    (294897574603217, 12356031372768286, (35789549760232784, 1499560653388513425));
    (294897574603217, 24712062745536572, (35883526930912629, 3006996480866244317));
    (1474487873016085, 24712062745536572, (35588629356309412, 596456883624141549));
    (26641241916251216, 893001636570580413, (25166754043235131, 843577511079507269));
    (13320620958125608, 893001636570580413, (25166754043235131, 1687155022159014538));
    (31064705535299471, 416509605217519938, (11846133085109523, 158830677117686825));
    (33301552395314020, 893001636570580413, (11846133085109523, 317661354235373650));
    (16650776197657010, 893001636570580413, (28496909282766533, 1528324345041327713));
    (35869348647846958, 384743469793982573, (11846133085109523, 127064541694149460));
    (29780807409033002, 638872553182281493, (11846133085109523, 254129083388298920));
    (14890403704516501, 638872553182281493, (26736536789626024, 1147130719958879333));
    (28258672099329513, 2424875826323442319, (13368268394813012, 1147130719958879333));
    (31302942718736491, 537220919826961925, (11846133085109523, 203303266710639136));
    (21574537901923007, 740524186537601061, (33420670987032530, 1147130719958879333));
    (21574537901923007, 1481048373075202122, (16710335493516265, 1147130719958879333));
    (31302942718736491, 429776735861569540, (6981930676702781, 95859082745246751));
    (19142436697719636, 525635818606816291, (26124367374422417, 717353984097309793));
    (9571218348859818, 525635818606816291, (35695585723282235, 1960343786801435877));
    (31302942718736491, 343821388689255632, (16553149025562599, 181814429917560659));
    (23928045872149545, 525635818606816291, (16553149025562599, 363628859835121318));
    (23928045872149545, 1051271637213632582, (20240597448856072, 889264678441937609));
    (23928045872149545, 2102543274427265164, (34048344596577581, 2991807952869202773));
    (13807747147721509, 242655719197065511, (22985999326697162, 403953240047806587));
    (13807747147721509, 485311438394131022, (25300746811070090, 889264678441937609));
    (13807747147721509, 970622876788262044, (26458120553256554, 1859887555230199653));
    (1157373742186464, 16271639669264887, (35474897215200089, 498745326379580321));
    (578686871093232, 16271639669264887, (35474897215200089, 997490652759160642));
    (289343435546616, 16271639669264887, (35764240650746705, 2011252945187586171));
    (1446717177733080, 16271639669264887, (34896210344106857, 392487605235958302));
    (723358588866540, 16271639669264887, (35619568932973397, 801246850141181491));
    (361679294433270, 16271639669264887, (35981248227406667, 1618765339951627869));
    (180839647216635, 16271639669264887, (35981248227406667, 3237530679903255738));
    (904198236083175, 16271639669264887, (35257889638540127, 634488824245239238));
    (33452413950725626, 1203996212669510283, (32548215714642451, 1171452933330980509));
    (16726206975362813, 1203996212669510283, (32548215714642451, 2342905866661961018));
    (20342999919695513, 292868489475549695, (15822008739279638, 227781930798490147));
    (28254004289335332, 813518909749589537, (7911004369639819, 227781930798490147));
    (29949010883947304, 1724646632943550125, (7911004369639819, 455563861596980294));
    (29949010883947304, 344929326588710025, (9606010964251791, 110634535008270269));
    (14974505441973652, 344929326588710025, (24580516406225443, 566198396605250563));
    (7487252720986826, 344929326588710025, (32067769127212269, 1477326119799211151));
    (3743626360493413, 344929326588710025, (35811395487705682, 3299581566187132327));
    (3743626360493413, 68985865317742005, (33055549379285303, 609132818795194132));
    (3743626360493413, 137971730635484010, (33374093311863010, 1230005606654872177));
    (3743626360493413, 275943461270968020, (35405178458398570, 2609722913009712277));
    (3743626360493413, 55188692254193604, (34768090593243156, 512552607350355325));
    (3743626360493413, 110377384508387208, (32358550738595230, 954062145383904157));
    (3743626360493413, 220754769016774416, (34897407171764680, 2057835990467776237));
    (18718131802467065, 220754769016774416, (27410154450777854, 323265290486845481));
    (18718131802467065, 441509538033548832, (32423209027855992, 764774828520394313));
    (18718131802467065, 883019076067097664, (34929736316395061, 1647793904587491977));
    (26823934059431063, 2530812980654589641, (34929736316395061, 3295587809174983954));
    (10612329545503067, 200252664722760203, (29916681739316923, 564522163797634110));
    (30876835187913062, 1165280157965914719, (20264505642409995, 764774828520394313));
    (15438417593956531, 1165280157965914719, (35702923236366526, 2694829815006703345));
    (5786241497049603, 87348231963233381, (35702923236366526, 538965963001340669));
    (23637703115232866, 713662426927807431, (17851461618183263, 538965963001340669));
    (29670313175799696, 1791594352930488769, (17851461618183263, 1077931926002681338));
    (17605093054666036, 212611070956148191, (23884071678750093, 288440285015511049));
    (8802546527333018, 212611070956148191, (32686618206083111, 789491640987170289));
    (4401273263666509, 212611070956148191, (32686618206083111, 1578983281974340578));
    (18543945734874810, 1791594352930488769, (32686618206083111, 3157966563948681156));
    (31747765525874337, 613452155733475583, (9741399207541792, 188230013821179201));
    (31747765525874337, 1226904311466951166, (4870699603770896, 188230013821179201));
    (34183115327759785, 2642038636755081533, (2435349801885448, 188230013821179201));
    (26877065922103441, 415469719058308786, (12176749009427240, 188230013821179201));
    (32965440426817061, 1019169451937796773, (6088374504713620, 188230013821179201));
    (36009627679173871, 2226568917696772747, (3044187252356810, 188230013821179201));
    (29921253174460251, 370021778010882869, (15220936261784050, 188230013821179201));
    (29921253174460251, 740043556021765738, (7610468130892025, 188230013821179201));
    (18765860652676138, 928273569842944939, (26376328783568163, 1304733597485303341));
    (35759259109906232, 3537740764813551621, (26376328783568163, 2609467194970606682));
    (1772462195446044, 35070702911645627, (34507416263568037, 682778649461425550));
    (886231097723022, 35070702911645627, (35393647361291059, 1400628001834496727));
    (443115548861511, 35070702911645627, (35836762910152570, 2836326706580639081));
    (2215577744307555, 35070702911645627, (34507416263568037, 546222919569140440));
    (22792652492552906, 721576434127368575, (20577074748245351, 651435028304077321));
    (11396326246276453, 721576434127368575, (31973400994521804, 2024446490735523217));
    (11396326246276453, 144315286825473715, (34507416263568037, 436978335655312352));
    (11396326246276453, 288630573650947430, (34348197501198698, 869924196131733497));
    (11396326246276453, 577261147301894860, (28570424996875802, 1447185343433628357));
    (11396326246276453, 115452229460378972, (28888862521614480, 292663048829838637));
    (11396326246276453, 230904458920757944, (25840757507083693, 523567507750596581));
    (11396326246276453, 461808917841515888, (30014868122956526, 1216280884512870413));
    (11396326246276453, 923617835683031776, (26403760307754716, 2139898720195902189));
    (19181544677351096, 310914524507244983, (18618541876680073, 301788786668541810));
    (9590772338675548, 310914524507244983, (28209314215355621, 914492097844328603));
    (4795386169337774, 310914524507244983, (33004700384693395, 2139898720195902189));
    (23976930846688870, 310914524507244983, (18618541876680073, 241431029334833448));
    (11988465423344435, 310914524507244983, (30607007300024508, 793776583176911879));
    (27291969073356689, 1415605632191401845, (15303503650012254, 793776583176911879));
    (27291969073356689, 283121126438280369, (21933580103347892, 227534330300351141));
    (27291969073356689, 566242252876560738, (10966790051673946, 227534330300351141));
    (27291969073356689, 1132484505753121476, (32775364099193662, 1360018836053472617));
    (27291969073356689, 2264969011506242952, (16387682049596831, 1360018836053472617));
    (10904287023759858, 180990035090554067, (27416975129184865, 455068660600702282));
    (5452143511879929, 180990035090554067, (32869118641064794, 1091127356291958631));
    (5452143511879929, 361980070181108134, (32790989856172184, 2177067566835283033));
    (27260717559399645, 361980070181108134, (21886702832412326, 290621485294613353));
    (27260717559399645, 723960140362216268, (10943351416206163, 290621485294613353));
    (19102034487802904, 1014581625656829621, (30045385904009067, 1595824596246056327));
    (8158683071596741, 86667731013520583, (30240707866240592, 321239777548664957));
    (8158683071596741, 173335462027041166, (31437720076313778, 667910701602747289));
    (23877543109753630, 1014581625656829621, (15718860038156889, 667910701602747289));
    (11938771554876815, 1014581625656829621, (27657631593033704, 2350403028862324199));
    (20097454626473556, 341584694752998857, (19498948521436963, 331412236150831907));
    (10048727313236778, 341584694752998857, (29547675834673741, 1004409167054662671));
    (5024363656618389, 341584694752998857, (34572039491292130, 2350403028862324199));
    (25121818283091945, 341584694752998857, (24523312178055352, 333446727871265297));
    (25121818283091945, 683169389505997714, (12261656089027676, 333446727871265297));
    (31252646327605783, 1699785506883260725, (6130828044513838, 333446727871265297));
    (31252646327605783, 339957101376652145, (30654140222569190, 333446727871265297));
    (31252646327605783, 679914202753304290, (15327070111284595, 333446727871265297));
    (23289858219445189, 1013360930624569587, (15327070111284595, 666893455742530594));
    (23289858219445189, 2026721861249139174, (19308464165364892, 1680254386367100181));
    (31252646327605783, 543931362202643432, (11345676057204298, 197463887320604439));
    (31252646327605783, 1087862724405286864, (5672838028602149, 197463887320604439));
    (18462742178103966, 1285326611725891303, (24135580206706115, 1680254386367100181));
    (12789904149501817, 178079767416936485, (28364190143010745, 394927774641208878));
    (12789904149501817, 356159534833872970, (33366951295758098, 929167076892018333));
    (29473379797380866, 1641486146559764273, (16683475647879049, 929167076892018333));
    (12789904149501817, 142463813933549188, (32257761641387977, 359311821157821581));
    (12789904149501817, 284927627867098376, (35313737044946714, 786703262958469145));
    (30446772671975174, 1356558518692665897, (17656868522473357, 786703262958469145));
    (32880254858460944, 2929965044609604187, (17656868522473357, 1573406525916938290));
    (23146326112517864, 412514603142502923, (17656868522473357, 314681305183387658));
    (29230031578732289, 1041877213509278239, (17656868522473357, 629362610366775316));
    (23443450050602823, 1671239823876053555, (17656868522473357, 1258725220733550632));
    (23443450050602823, 334247964775210711, (17953992460558316, 255981326407918499));
    (23443450050602823, 668495929550421422, (32420446280881981, 924477255958339921));
    (23443450050602823, 1336991859100842844, (27931948165742402, 1592973185508761343));
    (18954951935463244, 216202106538584869, (22442490575697895, 255981326407918499));
    (9477475967731622, 216202106538584869, (31919966543429517, 728164759354421867));
    (4738737983865811, 216202106538584869, (31919966543429517, 1456329518708843734));
    (4738737983865811, 432404213077169738, (32545566215245097, 2969744264478937817));
    (23693689919329055, 432404213077169738, (13590614279781853, 248025482434051773));
    (23693689919329055, 864808426154339476, (18642152099555454, 680429695511221511));
    (33014765969106782, 2410046547819900463, (9321076049777727, 680429695511221511));
    (5051537819773601, 73751492257247186, (31450766789567832, 459175218739479953));
    (25828459034331118, 754181187768468697, (20776921214557517, 606678203253974325));
    (12914229517165559, 754181187768468697, (33691150731723076, 1967537594276417347));
    (23017305156712761, 268838625165289237, (20776921214557517, 242671281301589730));
    (21897113185635139, 511509906466878967, (20776921214557517, 485342562603179460));
    (21337017200096328, 996852469070058427, (20776921214557517, 970685125206358920));
    (10668508600048164, 996852469070058427, (31445429814605681, 2938222719482776267));
    (32565621785683303, 608578418987514859, (20776921214557517, 388274050082543568));
    (26671271500120410, 996852469070058427, (20776921214557517, 776548100165087136));
    (13335635750060205, 996852469070058427, (34112556964617722, 2549948669400232699));
    (29471751427814465, 440608737809942582, (7441285464497312, 111248746252023169));
    (33192394160063121, 992466221871908333, (3720642732248656, 111248746252023169));
    (35052715526187449, 2096181189995839835, (1860321366124328, 111248746252023169));
    (35052715526187449, 419236237999167967, (9301606830621640, 111248746252023169));
    (35052715526187449, 838472475998335934, (4650803415310820, 111248746252023169));
    (35052715526187449, 1676944951996671868, (2325401707655410, 111248746252023169));
    (35052715526187449, 3353889903993343736, (1162700853827705, 111248746252023169));
    (30401912110876629, 581778983797050212, (5813504269138525, 111248746252023169));
    (35548220997423152, 1360520207561212395, (5813504269138525, 222497492504046338));
    (17774110498711576, 1360520207561212395, (23587614767850101, 1805515192569305071));
    (17774110498711576, 272104041512242479, (29067521345692625, 444994985008092676));
    (8887055249355788, 272104041512242479, (29067521345692625, 889989970016185352));
    (4443527624677894, 272104041512242479, (33511048970370519, 2052083981544613183));
    (22217638123389470, 272104041512242479, (24623993721014731, 301575179704025645));
    (11108819061694735, 272104041512242479, (35732812782709466, 875254400920293769));
    (11108819061694735, 544208083024484958, (28975225453049468, 1419462483944778727));
    (11108819061694735, 1088416166048969916, (25596431788219469, 2507878649993748643));
    (7730025396864736, 151473969630632221, (32354019117879467, 633994257157073253));
    (3865012698432368, 151473969630632221, (32354019117879467, 1267988514314146506));
    (1932506349216184, 151473969630632221, (34286525467095651, 2687450998258925233));
    (9662531746080920, 151473969630632221, (28489006419447099, 446605817873405714));
    (4831265873040460, 151473969630632221, (33320272292487559, 1044685605377443649));
    (2415632936520230, 151473969630632221, (35735905229007789, 2240845180385519519));
    (12078164682601150, 151473969630632221, (26073373482926869, 326989860372598127));
    (6039082341300575, 151473969630632221, (32112455824227444, 805453690375828475));
    (28134392594714872, 1411349568898357359, (22095310253414297, 1108401629637092917));
    (30195411706502875, 302947939261264442, (16056227912113722, 161090738075165695));
    (30195411706502875, 605895878522528884, (8028113956056861, 161090738075165695));
    (35167990743393590, 1411349568898357359, (8028113956056861, 322181476150331390));
    (17583995371696795, 1411349568898357359, (25612109327753656, 2055712521199020139));
    (31723179166085948, 509241435677429467, (8028113956056861, 128872590460132556));
    (31917817495156696, 1024731797517959691, (8028113956056861, 257745180920265112));
    (15958908747578348, 1024731797517959691, (23987022703635209, 1540222159358489915));
    (31820498330621322, 408642933774563725, (23987022703635209, 308044431871697983));
    (15910249165310661, 408642933774563725, (23987022703635209, 616088863743395966));
    (19948635934472935, 1024731797517959691, (23987022703635209, 1232177727486791932));
    (15910249165310661, 163457173509825490, (20191933845811370, 207445929968832241));
    (15910249165310661, 326914347019650980, (26006216088216346, 534360276988483221));
    (28913357209418834, 1188188971027785181, (13003108044108173, 534360276988483221));
    (27459786648817590, 2256909525004751623, (13003108044108173, 1068720553976966442));
    (15910249165310661, 261531477615720784, (24552645527615102, 403594538180622829));
    (28186571929118212, 926657493412064397, (12276322763807551, 403594538180622829));
    (14093285964559106, 926657493412064397, (26369608728366657, 1733846569773310055));
    (17727212366062216, 233118865502740375, (26369608728366657, 346769313954662011));
    (35233214911397765, 926657493412064397, (26369608728366657, 693538627909324022));
    (30801411819882211, 1620196121321388419, (26369608728366657, 1387077255818648044));
    (4431803091515554, 46623773100548075, (34348375628491097, 361354247606590394));
    (2215901545757777, 46623773100548075, (34348375628491097, 722708495213180788));
    (2215901545757777, 93247546201096150, (36009350953186653, 1515312637922498063));
    (2215901545757777, 186495092402192300, (34623937069776654, 2914025830938940313));
    (2215901545757777, 37299018480438460, (35733789511901096, 601486685151755793));
    (2215901545757777, 74598036960876920, (35594107122012764, 1198270980838771153));
    (2215901545757777, 149196073921753840, (35524265927068598, 2391839572212801873));
    (2215901545757777, 29839214784350768, (35803630706845262, 482129826014352721));
    (2215901545757777, 59678429568701536, (35629027719484847, 959557262563965009));
    (2215901545757777, 119356859137403072, (34433775452925751, 1854733706094488049));
    (11079507728788885, 119356859137403072, (30001972361410197, 323203997563936381));
    (31620247773888426, 681274574976145597, (20540740045099541, 442560856701339453));
    (15810123886944213, 681274574976145597, (20540740045099541, 885121713402678906));
    (15810123886944213, 1362549149952291194, (33985555852966090, 2928945438331115697));
    (13444815807866549, 231740402305151577, (25271356203254869, 435587540731684886));
    (32802901813427258, 1130808747647139617, (19358086005560709, 667327943036836463));
    (16401450906713629, 1130808747647139617, (35759536912274338, 2465464633720812543));
    (29846266714580178, 411554071373549185, (22314721104407789, 307700604900041247));
    (14923133357290089, 411554071373549185, (22314721104407789, 615401209800082494));
    (14923133357290089, 823108142747098370, (33542060588139028, 1850063423920730049));
    (14923133357290089, 164621628549419674, (33402102725084339, 368468766975952983));
    (14923133357290089, 329243257098839348, (24162618041187214, 533090395525372657));
    (14923133357290089, 658486514197678696, (27004442377883696, 1191576909723051353));
    (28425354546231937, 2508549938118408745, (13502221188941848, 1191576909723051353));
    (28425354546231937, 501709987623681749, (10660396852245366, 188156934475687855));
    (28425354546231937, 1003419975247363498, (33755552972354620, 1191576909723051353));
    (28425354546231937, 2006839950494726996, (16877776486177310, 1191576909723051353));
    (31086898169659720, 438949171820299933, (5330198426122683, 75262773790275142));
    (31534044363197909, 890525814561950785, (5330198426122683, 150525547580550284));
    (18432121394660296, 1041051362142501069, (23762319820782979, 1342102457303601637));
    (31534044363197909, 356210325824780314, (29092518246905662, 328630710492940441));
    (31534044363197909, 712420651649560628, (14546259123452831, 328630710492940441));
    (23040151743325370, 1041051362142501069, (14546259123452831, 657261420985880882));
    (11520075871662685, 1041051362142501069, (26066334995115516, 2355574204114262833));
    (33390913343992257, 603496994415683957, (3026183251790146, 54694295965852139));
    (34904004969887330, 1261688284797220053, (1513091625895073, 54694295965852139));
    (28043643866209176, 2027408428319149999, (29556735492104249, 2136797020250854277));
    (23504368988523957, 339848530504807433, (31069827117999322, 449237122436511711));
    (23504368988523957, 679697061009614866, (15534913558999661, 449237122436511711));
    (35054554832761470, 2027408428319149999, (15534913558999661, 898474244873023422));
    (3984727714762148, 46091987714620631, (33842562932614677, 391462380012196481));
    (1992363857381074, 46091987714620631, (35834926789995751, 829016747739013593));
    (996181928690537, 46091987714620631, (35834926789995751, 1658033495478027186));
    (996181928690537, 92183975429241262, (35350647147082273, 3271253065489749271));
    (4980909643452685, 92183975429241262, (32362101361010662, 598940227840405097));
    (21161960323958016, 783308178698887621, (16181050680505331, 598940227840405097));
    (10580980161979008, 783308178698887621, (26762030842484339, 1981188634379697815));
    (26142869967410701, 387070451822948058, (26762030842484339, 396237726875939563));
    (26452450404947520, 783308178698887621, (26762030842484339, 792475453751879126));
    (13226225202473760, 783308178698887621, (26762030842484339, 1584950907503758252));
    (35792243133760538, 423950996621620625, (309580437536819, 3666910021196602));
    (33065563006184400, 783308178698887621, (33375143443721219, 790641998741280825));
    (16532781503092200, 783308178698887621, (33375143443721219, 1581283997482561650));
    (8266390751546100, 783308178698887621, (33375143443721219, 3162567994965123300));
    (7956810314009281, 150794579705862961, (33375143443721219, 632513598993024660));
    (20665976878865250, 783308178698887621, (33375143443721219, 1265027197986049320));
    (10332988439432625, 783308178698887621, (33375143443721219, 2530054395972098640));
    (18289798753441906, 277297299504467893, (33375143443721219, 506010879194419728));
    (9144899376720953, 277297299504467893, (33375143443721219, 1012021758388839456));
    (30404920786942039, 1843913656902243135, (21260021410221086, 1289319057893307349));
    (30404920786942039, 368782731380448627, (15085344690279313, 182970863751961468));
    (30404920786942039, 737565462760897254, (22745132738610676, 551753595132410095));
    (30404920786942039, 1475130925521794508, (11372566369305338, 551753595132410095));
    (30404920786942039, 2950261851043589016, (5686283184652669, 551753595132410095));
    (32612657057004146, 632896751487466617, (5686283184652669, 110350719026482019));
    (33365178082460080, 1295001065646358731, (5686283184652669, 220701438052964038));
    (33741438595188047, 2619209693964142959, (5686283184652669, 441402876105928076));
    (10996305856577371, 170719637908086131, (28431415923263345, 441402876105928076));
    (19713860889920358, 612122514014014207, (28431415923263345, 882805752211856152));
    (9856930444960179, 612122514014014207, (28431415923263345, 1765611504423712304));
    (31849542158114921, 395575923455740651, (8717555033342987, 108273295279136778));
    (20283548595728954, 503849218734877429, (29001103629071941, 720395809293150985));
    (10141774297864477, 503849218734877429, (29001103629071941, 1440791618586301970));
    (19571438963468209, 1944640837321179399, (29001103629071941, 2881583237172603940));
    (10853883930125222, 215690895017617035, (29001103629071941, 576316647434520788));
    (34428045594134552, 1368324189886658611, (29001103629071941, 1152633294869041576));
    (17214022797067276, 1368324189886658611, (29001103629071941, 2305266589738083152));
    (5426941965062611, 86276358007046814, (31800694334710270, 505560609816190471));
    (5426941965062611, 172552716014093628, (32181173062542968, 1023218757858471355));
    (21517528496334095, 1368324189886658611, (16090586531271484, 1023218757858471355));
    (27134709825313055, 345105432028187256, (16090586531271484, 204643751571694271));
    (35180003090948797, 894854615628068783, (8045293265635742, 204643751571694271));
    (35180003090948797, 1789709231256137566, (4022646632817871, 204643751571694271));
    (31157356458130926, 317013095936888659, (20113233164089355, 204643751571694271));
    (35691911393154818, 726300599080277201, (20113233164089355, 409287503143388542));
    (17845955696577409, 726300599080277201, (20113233164089355, 818575006286777084));
    (17845955696577409, 1452601198160554402, (18979594430333382, 1544875605367054285));
    (32290995191886899, 525675834940321831, (18979594430333382, 308975121073410857));
    (32290995191886899, 1051351669880643662, (9489797215166691, 308975121073410857));
    (30380193418693486, 1978277033100876233, (9489797215166691, 617950242146821714));
    (11400598988360104, 148475309761446561, (24647788099113247, 320999622623928592));
    (5700299494180052, 148475309761446561, (30348087593293299, 790474555009303745));
    (2850149747090026, 148475309761446561, (33198237340383325, 1729424419780054051));
    (14250748735450130, 148475309761446561, (30348087593293299, 316189822003721498));
    (7125374367725065, 148475309761446561, (30348087593293299, 632379644007442996));
    (25862105348234247, 1077805573291782679, (18736730980509182, 780854953768889557));
    (25862105348234247, 2155611146583565358, (35230470838488838, 2936466100352454915));
    (23619114225704721, 393731486372092409, (35230470838488838, 587293220070490983));
    (23619114225704721, 787462972744184818, (17615235419244419, 587293220070490983));
    (20617174822474570, 1374756192814675801, (17615235419244419, 1174586440140981966));
    (3001939403230151, 40033950534738767, (34041267838079377, 453975330515684160));
    (3001939403230151, 80067901069477534, (33531300636805519, 894348786397810597));
    (24270498826478137, 1294688291745198267, (21268559423247986, 1134552489606243199));
    (27272438229708288, 290964818776830667, (12262741213557533, 130829016637875599));
    (13636219114854144, 290964818776830667, (25898960328411677, 552622852052581865));
    (6818109557427072, 290964818776830667, (32717069885838749, 1396210522881994397));
    (3409054778713536, 290964818776830667, (32717069885838749, 2792421045763988794));
    (17045273893567680, 290964818776830667, (25898960328411677, 442098281642065492));
    (8522636946783840, 290964818776830667, (34421597275195517, 1175161382060961651));
    (4261318473391920, 290964818776830667, (34421597275195517, 2350322764121923302));
    (21306592366959600, 290964818776830667, (30160278801803597, 411871589069018527));
    (10653296183479800, 290964818776830667, (30160278801803597, 823743178138037054));
    (5326648091739900, 290964818776830667, (35486926893543497, 1938451175052904775));
    (26633240458699500, 290964818776830667, (35486926893543497, 387690235010580955));
    (13316620229349750, 290964818776830667, (35486926893543497, 775380470021161910));
    (6658310114674875, 290964818776830667, (35486926893543497, 1550760940042323820));
    (6658310114674875, 581929637553661334, (34389238733458936, 3005585033926477155));
    (33291550573374375, 581929637553661334, (34389238733458936, 601117006785295431));
    (33291550573374375, 1163859275107322668, (17194619366729468, 601117006785295431));
    (33291550573374375, 2327718550214645336, (8597309683364734, 601117006785295431));
    (24694240890009641, 345320308685869981, (18292307526814029, 255796698099425450));
    (24694240890009641, 690640617371739962, (21493274208411835, 601117006785295431));
    (23093757549210738, 1291757624157035393, (21493274208411835, 1202234013570590862));
    (26294724230808544, 294160969065984891, (18292307526814029, 204637358479540360));
    (13147362115404272, 294160969065984891, (31439669642218301, 703435686025065611));
    (6573681057702136, 294160969065984891, (31439669642218301, 1406871372050131222));
    (3286840528851068, 294160969065984891, (34726510171069369, 3107903713166247335));
    (16434202644255340, 294160969065984891, (34726510171069369, 621580742633249467));
    (8217101322127670, 294160969065984891, (34726510171069369, 1243161485266498934));
    (4108550661063835, 294160969065984891, (34726510171069369, 2486322970532997868));
    (20542753305319175, 294160969065984891, (22400858187877864, 320768012667008639));
    (31743182399258107, 909089950798978421, (11200429093938932, 320768012667008639));
    (31743182399258107, 1818179901597956842, (5600214546969466, 320768012667008639));
    (14942538758349709, 171175172719386185, (28001072734847330, 320768012667008639));
    (28943075125773374, 663118358105781009, (14000536367423665, 320768012667008639));
    (14471537562886687, 663118358105781009, (28472073930310352, 1304654383439798287));
    (28707574528041863, 2630891099651360305, (14236036965155176, 1304654383439798287));
    (28707574528041863, 526178219930272061, (13765035769692154, 252297943579254165));
    (28707574528041863, 1052356439860544122, (35590092412887940, 1304654383439798287));
    (28707574528041863, 2104712879721088244, (17795046206443970, 1304654383439798287));
    (33915087953451234, 497300963986184959, (6882517884846077, 100919177431701666));
    (30722579746417771, 900977673712991623, (6882517884846077, 201838354863403332));
    (18802548815631924, 1102816028576394955, (25685066700478001, 1506492738303201619));
    (18802548815631924, 220563205715278991, (34412589424230385, 403676709726806664));
    (9401274407815962, 220563205715278991, (34412589424230385, 807353419453613328));
    (4700637203907981, 220563205715278991, (34412589424230385, 1614706838907226656));
    (4700637203907981, 441126411430557982, (33658524925793126, 3158649278914179593));
    (23503186019539905, 441126411430557982, (14855976110161202, 278828726638389533));
    (23503186019539905, 882252822861115964, (30931174074620506, 1161081549499505497));
    (23503186019539905, 1764505645722231928, (15465587037310253, 1161081549499505497));
    (609610927149051, 9153328589189473, (35920718421104903, 539350796098400120));
    (19484386528425079, 585117439044347485, (18874775601276028, 566810781865968539));
    (19484386528425079, 1170234878088694970, (28921774329063093, 1737045659954663509));
    (19484386528425079, 234046975617738994, (27702552474764991, 332763806248229545));
    (19484386528425079, 468093951235477988, (23593469501595035, 566810781865968539));
    (19484386528425079, 936187902470955976, (21538928015010057, 1034904733101446527));
    (19484386528425079, 1872375804941911952, (20511657271717568, 1971092635572402503));
    (17429845041840101, 334988428736186170, (22566198758302546, 433705259366676721));
    (28712944420991374, 1103682116839049061, (11283099379151273, 433705259366676721));
    (14356472210495687, 1103682116839049061, (25639571589646960, 1971092635572402503));
    (17429845041840101, 267990742988948936, (19492825926958132, 299709887872202253));
    (17429845041840101, 535981485977897872, (27176258005319167, 835691373850100125));
    (22303051523579634, 1371672859827997997, (27176258005319167, 1671382747700200250));
    (29986483601940669, 368843211207877847, (27176258005319167, 334276549540040050));
    (28581370803629918, 703119760747917897, (27176258005319167, 668553099080080100));
    (14290685401814959, 703119760747917897, (27176258005319167, 1337106198160160200));
    (20733471703567063, 2040225958908078097, (27176258005319167, 2674212396320320400));
    (22138584501877814, 435698521115885857, (27176258005319167, 534842479264064080));
    (11069292250938907, 435698521115885857, (27176258005319167, 1069684958528128160));
    (19122775128129037, 1505383479644014017, (27176258005319167, 2139369917056256320));
    (14085101624687684, 221761529410260225, (27176258005319167, 427873983411251264));
    (34218808817663009, 1077509496232762753, (27176258005319167, 855747966822502528));
    (30697533411491088, 1933257463055265281, (27176258005319167, 1711495933645005056));
    (3521275406171921, 44352305882052045, (33764303247610126, 425279063065495751));
    (3521275406171921, 88704611764104090, (34488528654664668, 868802121886016201));
    (3521275406171921, 177409223528208180, (34850641358191939, 1755848239527057101));
    (3521275406171921, 35481844705641636, (33402190544082855, 336574451301391661));
    (3521275406171921, 70963689411283272, (32546834599815072, 655911053652166385));
    (3521275406171921, 141927378822566544, (33879794330767141, 1365547947764999105));
    (22221810274641452, 1791330084232698737, (18700534868469531, 1507475326587565649));
    (25743085680813373, 415036968375566365, (33879794330767141, 546219179105999642));
    (25743085680813373, 830073936751132730, (29811440005790257, 961256147481566007));
    (27777262843301815, 1791330084232698737, (29811440005790257, 1922512294963132014));
    (25743085680813373, 332029574700453092, (35913971493255583, 463211785430886369));
    (25743085680813373, 664059149400906184, (30828528587034478, 795241360131339461));
    (25743085680813373, 1328118298801812368, (15414264293517239, 795241360131339461));
    (15572199868371163, 160677891176015852, (20499707199738344, 211521156318441203));
    (25822053468240335, 532876938670472907, (10249853599869172, 211521156318441203));
    (30946980268174921, 1277275033659387017, (5124926799934586, 211521156318441203));
    (33509443668142214, 2766071223637215237, (2562463399967293, 211521156318441203));
    (23259590068273042, 383997319672690085, (12812316999836465, 211521156318441203));
    (24442112033972986, 807039632309572491, (12812316999836465, 423042312636882406));
    (12221056016986493, 807039632309572491, (25033373016822958, 1653124257583337303));
    (11629795034136521, 153598927869076034, (26215894982522902, 346242848702344389));
    (11629795034136521, 307197855738152068, (24737742525397972, 653440704440496457));
    (23998666296835507, 1267836415916800593, (12368871262698986, 653440704440496457));
    (10890718805574056, 115070143702422363, (25476818753960437, 269185280369037047));
    (5445359402787028, 115070143702422363, (30922178156747465, 653440704440496457));
    (33644857858140979, 1421951552583415277, (30922178156747465, 1306881408880992914));
    (33644857858140979, 2843903105166830554, (32283518007444222, 2728832961464408191));
    (6806699253483785, 115070143702422363, (29560838306050708, 499738534811912693));
    (21587118406509139, 729878822216757419, (14780419153025354, 499738534811912693));
    (28977327983021816, 1959496179245427531, (7390209576512677, 499738534811912693));
    (14196908829996462, 192003821924320429, (22754139052566923, 307734712887592264));
    (7098454414998231, 192003821924320429, (29852593467565154, 807473247699504957));
    (29123205563779039, 1575488535396786673, (22024751148780808, 1191480891548145815));
    (35492272074991155, 384007643848640858, (22024751148780808, 238296178309629163));
    (35492272074991155, 768015287697281716, (11012375574390404, 238296178309629163));
    (35492272074991155, 1536030575394563432, (5506187787195202, 238296178309629163));
    (35492272074991155, 3072061150789126864, (2753093893597601, 238296178309629163));
    (27232990394198352, 471434523172047875, (13765469467988005, 238296178309629163));
    (27381964665087181, 948026879791306201, (13765469467988005, 476592356619258326));
    (34339186534525598, 2377803949649081179, (13765469467988005, 953184713238516652));
    (6808247598549588, 94286904634409575, (34786109347192085, 481750190066468777));
    (3404123799274794, 94286904634409575, (34786109347192085, 963500380132937554));
    (1702061899637397, 94286904634409575, (34786109347192085, 1927000760265875108));
    (1702061899637397, 18857380926881915, (34361470965693871, 380695524261558078));
    (1702061899637397, 37714761853763830, (35052385429039604, 776700523726078293));
    (1702061899637397, 75429523707527660, (34546811710893772, 1530995760801354893));
    (1702061899637397, 150859047415055320, (35996086751458253, 3190445282366963413));
    (1702061899637397, 30171809483011064, (35305172288112520, 625841476311022973));
    (1702061899637397, 60343618966022128, (34673205140430230, 1229277665971244253));
    (1702061899637397, 120687237932044256, (34357221566589085, 2436150045291686813));
    (8510309498186985, 120687237932044256, (29251035867676894, 414817666299110809));
    (31646136930212417, 897566618027287833, (23135827432025432, 656192142163199321));
    (31646136930212417, 1795133236054575666, (11567913716012716, 656192142163199321));
    (20078223214199701, 227788218778275269, (17683122151664178, 200615704606648783));
    (20078223214199701, 455576437556550538, (28919784290031790, 656192142163199321));
    (34538115359215596, 1567345017276300397, (14459892145015895, 656192142163199321));
    (17269057679607798, 1567345017276300397, (31728949824623693, 2879729301602699039));
    (2809165534591903, 50992146589980351, (35780308775384736, 649486378656654079));
    (2809165534591903, 101984293179960702, (34745147595243786, 1261392137736418291));
    (22990904866805699, 1669329310456261099, (20181739332213796, 1465360724096339695));
    (34227567005173311, 497040731179189343, (20181739332213796, 293072144819267939));
    (34227567005173311, 994081462358378686, (10090869666106898, 293072144819267939));
    (34227567005173311, 1988162924716757372, (5045434833053449, 293072144819267939));
    (19091262506012964, 221789298051790711, (25227174165267245, 293072144819267939));
    (34772805418273727, 807933587690326589, (25227174165267245, 586144289638535878));
    (29999989791770486, 1394077877328862467, (25227174165267245, 1172288579277071756));
    (14999994895885243, 1394077877328862467, (25227174165267245, 2344577158554143512));
    (34091257401898207, 633678452348637631, (10227179269382002, 190099856245056209));
    (34091257401898207, 1267356904697275262, (5113589634691001, 190099856245056209));
    (34943192422367607, 2598055898412668725, (5113589634691001, 380199712490112418));
    (34943192422367607, 519611179682533745, (25567948173455005, 380199712490112418));
    (34943192422367607, 1039222359365067490, (30255570297911306, 899810892172646163));
    (34943192422367607, 2078444718730134980, (15127785148955653, 899810892172646163));
    (34943192422367607, 415688943746026996, (5752540900043051, 68433004680592171));
    (34943192422367607, 831377887492053992, (20347866661205329, 484121948426619167));
    (27645529541786468, 1315499835918673159, (20347866661205329, 968243896853238334));
    (13822764770893234, 1315499835918673159, (34170631432098563, 3251987629625149827));
    (7297662880581139, 138902375626173930, (32625509451560475, 620987957787803509));
    (34556911927233085, 1315499835918673159, (27259249046651946, 1037695084666325299));
    (34556911927233085, 2630999671837346318, (13629624523325973, 1037695084666325299));
    (7297662880581139, 111121900500939144, (31659808213724170, 482085582161629579));
    (7297662880581139, 222243801001878288, (30425229868024363, 926573184165386155));
    (26159109254883890, 1593304587171021019, (18861446374302751, 1148816985167264443));
    (33456772135465029, 407558437834955519, (30425229868024363, 370629273666154462));
    (31941001001744696, 778187711501109981, (30425229868024363, 741258547332308924));
    (15970500500872348, 778187711501109981, (30425229868024363, 1482517094664617848));
    (7985250250436174, 778187711501109981, (30425229868024363, 2965034189329235696));
    (17486271634592681, 340818415935484838, (22439979617588189, 437369295565625143));
    (19963125626090435, 778187711501109981, (22439979617588189, 874738591131250286));
    (19963125626090435, 1556375423002219962, (21201552621839312, 1652926302632360267));
    (35417424351510571, 552246274848760790, (1238426995748877, 19310175926028061));
    (35665903614114002, 1112241376703574559, (1238426995748877, 38620351852056122));
    (25263513781550263, 1575685598928248023, (26501940777299140, 1652926302632360267));
    (22786659790052509, 284240838304004707, (28978794768796894, 361481542008116951));
    (22786659790052509, 568481676608009414, (14489397384398447, 361481542008116951));
    (18638028587225478, 929963218616126365, (33127425971623925, 1652926302632360267));
    (9319014293612739, 929963218616126365, (33127425971623925, 3305852605264720534)) ].

Definition fpow_certs : list (Z * Z * (Z * Z)) :=
  [ (0, 0, (0, 0));
    (0, 0, (0, 0));
    (0, 0, (0, 0));
    (0, 0, (0, 0));
    (0, 0, (0, 0));
    (0, 0, (0, 0));
    (0, 0, (0, 0));
    (0, 0, (0, 0));
    (0, 0, (0, 0));
    (0, 0, (0, 0));
    (0, 0, (0, 0));
    (0, 0, (0, 0));
    (0, 0, (0, 0));
    (0, 0, (0, 0));
    (0, 0, (0, 0));
    (0, 0, (0, 0));
    (0, 0, (0, 0));
    (0, 0, (0, 0));
    (0, 0, (0, 0));
    (0, 0, (0, 0));
    (0, 0, (0, 0));
    (0, 0, (0, 0));
    (0, 0, (0, 0));
    (0, 0, (0, 0));
    (0, 0, (0, 0));
    (0, 0, (0, 0));
    (0, 0, (0, 0));
    (0, 0, (0, 0));
    (0, 0, (0, 0));
    (0, 0, (0, 0));
    (0, 0, (0, 0));
    (0, 0, (0, 0));
    (0, 0, (0, 0));
    (0, 0, (0, 0));
    (0, 0, (0, 0));
    (0, 0, (0, 0));
    (0, 0, (0, 0));
    (0, 0, (0, 0));
    (0, 0, (0, 0));
    (0, 0, (0, 0));
    (0, 0, (0, 0));
    (0, 0, (0, 0));
    (0, 0, (0, 0));
    (0, 0, (0, 0));
    (0, 0, (0, 0));
    (0, 0, (0, 0));
    (0, 0, (0, 0));
    (0, 0, (0, 0));
    (0, 0, (0, 0));
    (0, 0, (0, 0));
    (0, 0, (0, 0));
    (0, 0, (0, 0));
    (0, 0, (0, 0));
    (0, 0, (0, 0));
    (0, 0, (0, 0));
    (0, 0, (0, 0));
    (0, 0, (0, 0));
    (0, 0, (0, 0));
    (0, 0, (0, 0));
    (0, 0, (0, 0));
    (0, 0, (0, 0));
    (0, 0, (0, 0));
    (0, 0, (0, 0));
    (0, 0, (0, 0));
    (0, 0, (0, 0));
    (0, 0, (0, 0));
    (0, 0, (0, 0));
    (0, 0, (0, 0));
    (0, 0, (0, 0));
    (0, 0, (0, 0));
    (0, 0, (0, 0));
    (0, 0, (0, 0));
    (0, 0, (0, 0));
    (0, 0, (0, 0));
    (0, 0, (0, 0));
    (0, 0, (0, 0));
    (0, 0, (0, 0));
    (0, 0, (0, 0));
    (0, 0, (0, 0));
    (0, 0, (0, 0));
    (0, 0, (0, 0));
    (0, 0, (0, 0));
    (0, 0, (0, 0));
    (0, 0, (0, 0));
    (0, 0, (0, 0));
    (0, 0, (0, 0));
    (28903816, 186786533, (41358803, 267275000));
    (57807632, 186786533, (41358803, 133637500));
    (32897658, 53149033, (41358803, 66818750));
    (39666574, 320424033, (41358803, 334093750));
    (37974345, 153377158, (41358803, 167046875));
    (37974345, 76688579, (44743261, 90358296));
    (31205429, 31509431, (44743261, 45179148));
    (15189738, 76688579, (59932999, 302584319));
    (30379476, 76688579, (44743261, 112947870));
    (60758952, 76688579, (44743261, 56473935));
    (33252233, 209851093, (38997747, 246110384));
    (66504466, 209851093, (38997747, 123055192));
    (55013438, 86795901, (38997747, 61527596));
    (18802237, 148323497, (57799984, 455961477));
    (37604474, 148323497, (38997747, 153818990));
    (36211201, 71414002, (38997747, 76909495));
    (22841339, 225232992, (61839086, 609780467));
    (22841339, 112616496, (55154155, 271930979));
    (22841339, 56308248, (64625632, 159314483));
    (22841339, 28154124, (60727247, 74852111));
    (22841339, 140770620, (66964663, 412701599));
    (22841339, 70385310, (65405309, 201545669));
    (22841339, 35192655, (62286601, 95967704));
    (22841339, 175963275, (62708266, 483086909));
    (45682678, 175963275, (39866927, 153561817));
    (5815751, 11200729, (62286601, 119959630));
    (57145514, 550291283, (17109921, 164762546));
    (62961265, 303147464, (17109921, 82381273));
    (62961265, 151573732, (34219842, 82381273));
    (62961265, 75786866, (5478419, 6594407));
    (12592253, 75786866, (55847431, 336119499));
    (12592253, 37893433, (61325850, 184545767));
    (25184506, 37893433, (48733597, 73326167));
    (50041929, 376473631, (24857423, 187006466));
    (50369012, 189467165, (24857423, 93503233));
    (25511589, 47981966, (49714846, 93503233));
    (15045287, 141485199, (64760133, 609001364));
    (30090574, 141485199, (64760133, 304500682));
    (60181148, 141485199, (64760133, 152250341));
    (65414476, 76894347, (4578985, 5382571));
    (66330273, 389854306, (915797, 5382571));
    (66330273, 194927153, (1831594, 5382571));
    (64498679, 94772291, (3663188, 5382571));
    (25354575, 186275998, (54372338, 399464851));
    (25354575, 93137999, (58035526, 213188853));
    (50709150, 93137999, (32680951, 60025427));
    (10141830, 93137999, (63106441, 579541132));
    (20283660, 93137999, (63106441, 289770566));
    (40567320, 93137999, (63106441, 144885283));
    (58595519, 67264357, (22539121, 25873642));
    (16226928, 93137999, (54992977, 315644208));
    (32453856, 93137999, (54992977, 157822104));
    (64907712, 93137999, (54992977, 78911052));
    (64907712, 465689995, (62924765, 451463048));
    (66890659, 239958471, (62924765, 225731524));
    (7931788, 14226947, (62924765, 112865762));
    (58271600, 522597783, (12584953, 112865762));
    (66203388, 296866259, (12584953, 56432881));
    (53618435, 120216689, (25169906, 56432881));
    (28448529, 31891904, (50339812, 56432881));
    (35893593, 201190547, (50339812, 282164405));
    (57340967, 160703618, (14446219, 40486929));
    (57340967, 80351809, (28892438, 40486929));
    (17246681, 120838738, (63385800, 444112121));
    (17246681, 60419369, (57784876, 202434645)) ].

Definition fpow1_certs_a : list (Z * Z * (Z * Z)) :=
  [ (0, 0, (0, 0));
    (0, 0, (0, 0));
    (0, 0, (0, 0));
    (0, 0, (0, 0));
    (0, 0, (0, 0));
    (0, 0, (0, 0));
    (0, 0, (0, 0));
    (0, 0, (0, 0));
    (0, 0, (0, 0));
    (0, 0, (0, 0));
    (0, 0, (0, 0));
    (0, 0, (0, 0));
    (0, 0, (0, 0));
    (0, 0, (0, 0));
    (0, 0, (0, 0));
    (0, 0, (0, 0));
    (0, 0, (0, 0));
    (0, 0, (0, 0));
    (0, 0, (0, 0));
    (0, 0, (0, 0));
    (0, 0, (0, 0));
    (0, 0, (0, 0));
    (0, 0, (0, 0));
    (0, 0, (0, 0));
    (0, 0, (0, 0));
    (0, 0, (0, 0));
    (0, 0, (0, 0));
    (0, 0, (0, 0));
    (0, 0, (0, 0));
    (0, 0, (0, 0));
    (0, 0, (0, 0));
    (0, 0, (0, 0));
    (0, 0, (0, 0));
    (0, 0, (0, 0));
    (0, 0, (0, 0));
    (0, 0, (0, 0));
    (0, 0, (0, 0));
    (0, 0, (0, 0));
    (0, 0, (0, 0));
    (0, 0, (0, 0));
    (0, 0, (0, 0));
    (0, 0, (0, 0));
    (0, 0, (0, 0));
    (0, 0, (0, 0));
    (0, 0, (0, 0));
    (0, 0, (0, 0));
    (0, 0, (0, 0));
    (0, 0, (0, 0));
    (0, 0, (0, 0));
    (0, 0, (0, 0));
    (0, 0, (0, 0));
    (0, 0, (0, 0));
    (0, 0, (0, 0));
    (0, 0, (0, 0));
    (0, 0, (0, 0));
    (0, 0, (0, 0));
    (0, 0, (0, 0));
    (0, 0, (0, 0));
    (0, 0, (0, 0));
    (0, 0, (0, 0));
    (0, 0, (0, 0));
    (0, 0, (0, 0));
    (0, 0, (0, 0));
    (0, 0, (0, 0));
    (0, 0, (0, 0));
    (0, 0, (0, 0));
    (0, 0, (0, 0));
    (0, 0, (0, 0));
    (0, 0, (0, 0));
    (0, 0, (0, 0));
    (0, 0, (0, 0));
    (0, 0, (0, 0));
    (0, 0, (0, 0));
    (0, 0, (0, 0));
    (0, 0, (0, 0));
    (0, 0, (0, 0));
    (0, 0, (0, 0));
    (0, 0, (0, 0));
    (0, 0, (0, 0));
    (0, 0, (0, 0));
    (0, 0, (0, 0));
    (0, 0, (0, 0)) ].

Definition fpow1_certs_b : list (Z * Z * (Z * Z)) :=
  [ (3612977, 373573066, (15259936, 1577840401));
    (3612977, 186786533, (16067964, 830694269));
    (12607333, 3258919198, (8994356, 2324986533));
    (12607333, 1629459599, (5381379, 695526934));
    (14451908, 933932665, (5381379, 347763467));
    (12976248, 4192851863, (6119209, 1977223066));
    (13714078, 2215628797, (6119209, 988611533));
    (7594869, 613508632, (12238418, 988611533));
    (7594869, 306754316, (9287098, 375102901));
    (6414341, 1295365849, (11648154, 2352325967));
    (12828682, 1295365849, (5233813, 528480059));
    (7594869, 383442895, (10467626, 528480059));
    (14819867, 3741060383, (3612499, 911922954));
    (15189738, 1917214475, (3612499, 455961477));
    (11577239, 730626499, (7224998, 455961477));
    (12430445, 3922356838, (7224998, 2279807385));
    (12430445, 1961178419, (14449996, 2279807385));
    (14763135, 1164606004, (2019551, 159314483));
    (4972178, 1961178419, (11963907, 4718929253));
    (9944356, 1961178419, (6991729, 1378875417));
    (2952627, 291151501, (13983458, 1378875417));
    (5905254, 291151501, (11030831, 543861958));
    (16066905, 3960797882, (3387217, 835013459));
    (16066905, 1980398941, (6774434, 835013459));
    (9292471, 572692741, (13548868, 835013459));
    (9987815, 3077733118, (13548868, 4175067295));
    (9987815, 1538866559, (7122106, 1097334177));
    (2865709, 220766191, (14244212, 1097334177));
    (3995126, 1538866559, (13114795, 5051635281));
    (7990252, 1538866559, (9119669, 1756384361));
    (15980504, 1538866559, (1129417, 108758901));
    (14851087, 715053829, (2258834, 108758901));
    (9362419, 2253920388, (13236170, 3186492019));
    (9362419, 1126960194, (7747502, 932571631));
    (9362419, 563480097, (15495004, 932571631));
    (9362419, 2817400485, (10588936, 3186492019));
    (16271804, 2448308951, (1226517, 184545767));
    (15045287, 1131881592, (2453034, 184545767));
    (13508050, 5081163669, (3990271, 1500973126));
    (15045287, 2829703980, (3990271, 750486563));
    (15045287, 1414851990, (7980542, 750486563));
    (15045287, 707425995, (15961084, 750486563));
    (9393491, 2208399121, (15961084, 3752432815));
    (12219389, 1436382274, (6567593, 772016847));
    (12219389, 718191137, (13135186, 772016847));
    (5070915, 1490207984, (13135186, 3860084235));
    (5070915, 745103992, (16128542, 2369876251));
    (5070915, 372551996, (11973424, 879668267));
    (1014183, 372551996, (16030156, 5888549319));
    (1014183, 186275998, (15833384, 2908133351));
    (1014183, 93137999, (16454023, 1511063366));
    (2028366, 93137999, (16454023, 755531683));
    (2028366, 465689995, (16272347, 3735947651));
    (4056732, 465689995, (14243981, 1635128828));
    (8113464, 465689995, (14243981, 817564414));
    (8113464, 2328449975, (12584953, 3611704384));
    (16226928, 2328449975, (12584953, 1805852192));
    (7283950, 522597783, (12584953, 902926096));
    (15498533, 5559826046, (14041743, 5037228263));
    (15498533, 2779913023, (12584953, 2257315240));
    (5827160, 522597783, (12584953, 1128657620));
    (11654320, 522597783, (12584953, 564328810));
    (2330864, 522597783, (14915817, 3344241833));
    (4661728, 522597783, (12584953, 1410822025));
    (9323456, 522597783, (7923225, 444112121));
    (15662036, 4389437399, (1584645, 444112121));
    (14077391, 1972662639, (3169290, 444112121)) ].

Definition finv_certs : list (Z * Z * (Z * Z)) :=
  [ (1, 1, (67108864, 67108865));
    (1, 2, (67108864, 134217729));
    (1, 4, (67108864, 268435457));
    (1, 8, (67108864, 536870913));
    (5, 8, (67108863, 107374181));
    (5, 16, (67108864, 214748365));
    (5, 32, (67108862, 429496717));
    (25, 32, (67108857, 85899337));
    (25, 64, (67108841, 171798633));
    (25, 128, (67108858, 343597353));
    (125, 128, (67108833, 68719445));
    (125, 256, (67108854, 137438933));
    (125, 512, (67108802, 274877653));
    (125, 1024, (67108776, 549755093));
    (625, 1024, (67108526, 109950609));
    (625, 2048, (67108638, 219901585));
    (625, 4096, (67108694, 439803537));
    (3125, 4096, (67107444, 87959069));
    (3125, 8192, (67106847, 175916573));
    (3125, 16384, (67108111, 351839773));
    (15625, 16384, (67101861, 70361401));
    (15625, 32768, (67105618, 140730681));
    (15625, 65536, (67099684, 281436473));
    (15625, 131072, (67096717, 562848057));
    (78125, 131072, (67081092, 112543397));
    (78125, 262144, (67056171, 225003173));
    (78125, 524288, (67082773, 450184869));
    (390625, 524288, (66848398, 89722401));
    (390625, 1048576, (67017949, 179899937));
    (390625, 2097152, (66907412, 359206433));
    (1953125, 2097152, (65344912, 70163565));
    (1953125, 4194304, (65875581, 141466733));
    (1953125, 8388608, (65164353, 279878765));
    (1953125, 16777216, (66761864, 573480045));
    (9765625, 16777216, (66761864, 114696009));
    (9765625, 33554432, (62677807, 215359305));
    (9765625, 67108864, (65518591, 450240329));
    (48828125, 67108864, (55752966, 76626293));
    (48828125, 134217728, (27876483, 76626293));
    (48828125, 268435456, (38352304, 210844021));
    (10475821, 11518287, (66051668, 72624577));
    (10475821, 23036574, (64453297, 141734299));
    (10475821, 46073148, (58416201, 256917169));
    (34446011, 302990317, (58416201, 513834338));
    (65873474, 115885841, (13494369, 23739545));
    (46431106, 163364931, (59925475, 210844021));
    (23215553, 163364931, (59925475, 421688042));
    (62100289, 87398387, (13494369, 18991636));
    (51291698, 144373295, (64786067, 182356567));
    (25645849, 144373295, (64786067, 364713134));
    (25645849, 28874659, (41825996, 47091885));
    (25645849, 57749318, (46558847, 104841203));
    (25645849, 115498636, (61748197, 278089157));
    (25645849, 230997272, (43697023, 393587793));
    (58886373, 106080259, (10456499, 18836754));
    (34671436, 124917013, (45127935, 162590521));
    (17335718, 124917013, (62463653, 450098055));
    (24214937, 34897402, (62463653, 90019611));
    (43339295, 124917013, (62463653, 180039222));
    (43339295, 249834026, (52901474, 304956235));
    (57992053, 66860285, (52901474, 60991247));
    (57992053, 133720570, (26450737, 60991247));
    (42221395, 194711817, (26450737, 121982494));
    (34336066, 316694311, (60786803, 560659299));
    (57992053, 106976456, (18565408, 34247133));
    (57992053, 213952912, (9282704, 34247133));
    (62633405, 462152957, (4641352, 34247133));
    (44067997, 65032885, (23206760, 34247133));
    (55671377, 164312903, (11603380, 34247133));
    (61473067, 362872939, (5801690, 34247133));
    (44067997, 52026308, (29008450, 34247133));
    (58572222, 138299749, (14504225, 34247133));
    (43790336, 206794015, (58294561, 275288281));
    (21895168, 206794015, (58294561, 550576562));
    (21895168, 41358803, (50625957, 95629729));
    (10947584, 41358803, (61573541, 232618261));
    (5473792, 41358803, (67047333, 506595325));
    (27368960, 41358803, (67047333, 101319065));
    (13684480, 41358803, (67047333, 202638130));
    (6842240, 41358803, (67047333, 405276260));
    (34211200, 41358803, (67047333, 81055252));
    (17105600, 41358803, (67047333, 162110504));
    (8552800, 41358803, (67047333, 324221008));
    (4276400, 41358803, (67047333, 648442016));
    (21382000, 41358803, (58494533, 113144882));
    (10691000, 41358803, (58494533, 226289764));
    (5345500, 41358803, (63840033, 493938331));
    (26727500, 41358803, (53149033, 82244145));
    (13363750, 41358803, (66512783, 205847093));
    (6681875, 41358803, (66512783, 411694186));
    (33409375, 41358803, (53149033, 65795316));
    (33409375, 82717606, (43279204, 107154119));
    (33409375, 165435212, (55048977, 272589331));
    (33409375, 330870424, (44229176, 438024543));
    (22589574, 44743261, (54099005, 107154119));
    (11294787, 44743261, (65393792, 259051499));
    (66581257, 527511065, (55286470, 438024543));
    (66581257, 105502213, (10107322, 16015691));
    (66581257, 211004426, (5053661, 16015691));
    (66581257, 422008852, (35817459, 227020117));
    (30763798, 38997747, (56032103, 71029129));
    (15381899, 38997747, (56032103, 142058258));
    (15381899, 77995494, (66470799, 337046993));
    (41202494, 41784293, (35707001, 36211201));
    (20601247, 41784293, (56308248, 114206695)) ].

Definition finv1_certs : list (Z * Z * (Z * Z)) :=
  [ (1, 64, (16777216, 1073741825));
    (1, 128, (16777216, 2147483649));
    (1, 256, (16777216, 4294967297));
    (5, 256, (16777214, 858993357));
    (5, 512, (16777212, 1717986509));
    (5, 1024, (16777216, 3435973837));
    (25, 1024, (16777201, 687194153));
    (25, 2048, (16777213, 1374389289));
    (25, 4096, (16777194, 2748775465));
    (25, 8192, (16777197, 5497551913));
    (125, 8192, (16777097, 1099503829));
    (125, 16384, (16777111, 2199009493));
    (125, 32768, (16777118, 4398020821));
    (625, 32768, (16776868, 879591057));
    (625, 65536, (16777184, 1759215249));
    (625, 131072, (16776717, 3518332561));
    (3125, 131072, (16774842, 703587869));
    (3125, 262144, (16774921, 1407182365));
    (3125, 524288, (16776523, 2814633501));
    (3125, 1048576, (16774199, 5628487197));
    (15625, 1048576, (16767949, 1125278009));
    (15625, 2097152, (16766787, 2250400057));
    (15625, 4194304, (16766206, 4500644153));
    (78125, 4194304, (16734956, 898451109));
    (78125, 8388608, (16726853, 1796032165));
    (78125, 16777216, (16761864, 3599582885));
    (390625, 16777216, (16761864, 719916577));
    (390625, 33554432, (16584057, 1424559649));
    (390625, 67108864, (16690466, 2867400225));
    (390625, 134217728, (16548358, 5685972513));
    (1953125, 134217728, (16157733, 1110350957));
    (1953125, 268435456, (14914804, 2049875053));
    (1953125, 536870912, (15269902, 4197358701));
    (9765625, 536870912, (9410527, 517349193));
    (9765625, 1073741824, (9588076, 1054220105));
    (9765625, 2147483648, (14559663, 3201703753));
    (15269859, 671575501, (4794038, 210844021));
    (15269859, 1343151002, (2397019, 210844021));
    (16024496, 2819059149, (2397019, 421688042));
    (10409267, 3662435233, (12806286, 4505811317));
    (5615229, 395136613, (11985095, 843376084));
    (14415391, 2028785923, (8800162, 1238512697));
    (14415391, 4057571846, (4400081, 1238512697));
    (1215148, 68406751, (15924665, 896478942));
    (607574, 68406751, (16532239, 1861364635));
    (303787, 68406751, (16532239, 3722729270));
    (1518935, 68406751, (16532239, 744545854));
    (12063457, 1086579609, (10544522, 949766107));
    (12063457, 2173159218, (5272261, 949766107));
    (8667859, 3122925325, (13940120, 5022457539));
    (8667859, 624585065, (9025587, 650362084));
    (8667859, 1249170130, (8846723, 1274947149));
    (8667859, 2498340260, (8757291, 2524117279));
    (8667859, 499668052, (9115019, 525445071));
    (8667859, 999336104, (8891439, 1025113123));
    (8667859, 1998672208, (8779649, 2024449227));
    (8444279, 389423634, (9003229, 415200653));
    (8444279, 778847268, (8723754, 804624287));
    (12806156, 2362318823, (4361877, 804624287));
    (15126832, 5580815971, (4361877, 1609248574));
    (14847357, 1095541579, (2320676, 171235665));
    (16007695, 2362318823, (1160338, 171235665));
    (16587864, 4895873311, (580169, 171235665));
    (16219885, 957453016, (580169, 34247133));
    (16522393, 1950619873, (580169, 68494266));
    (16673647, 3936953587, (580169, 136988532));
    (16093478, 759993011, (2900845, 136988532));
    (10947584, 1033970075, (13848429, 1307947139));
    (5473792, 1033970075, (13848429, 2615894278));
    (2736896, 1033970075, (16585325, 6265758631));
    (2736896, 206794015, (14504225, 1095908256));
    (1368448, 206794015, (15872673, 2398610527));
    (684224, 206794015, (16556897, 5004015069));
    (684224, 41358803, (16414757, 992211178));
    (342112, 41358803, (16756869, 2025781159));
    (171056, 41358803, (16756869, 4051562318));
    (855280, 41358803, (16585813, 802040703));
    (427640, 41358803, (16585813, 1604081406));
    (213820, 41358803, (16585813, 3208162812));
    (106910, 41358803, (16692723, 6457684427));
    (534550, 41358803, (16265083, 1258449843));
    (267275, 41358803, (16532358, 2558258489));
    (267275, 82717606, (16551704, 5122504275));
    (1336375, 82717606, (16551704, 1024500855));
    (1336375, 165435212, (16294102, 2017112127));
    (1336375, 330870424, (16165301, 4002334671));
    (6681875, 330870424, (10819801, 535770595));
    (6681875, 661740848, (15432713, 1528381867));
    (6681875, 1323481696, (11057294, 2190122715));
    (12210522, 4837086107, (5528647, 2190122715));
    (11294787, 894865220, (5528647, 438024543));
    (13940364, 2208938849, (5528647, 876049086));
    (12498829, 3961037021, (5528647, 1752098172));
    (15381899, 974943675, (4087112, 259051499));
    (15381899, 1949887350, (2043556, 259051499));
    (16403677, 4158826199, (1021778, 259051499));
    (15381899, 779954940, (5108890, 259051499));
    (15381899, 1559909880, (2554445, 259051499));
    (8968172, 1818961379, (11522617, 2337064377));
    (15381899, 623963952, (14077062, 571033475));
    (15381899, 1247927904, (7038531, 571033475)) ].

Definition s2dpow_certs : list (Z * Z * (Z * Z)) :=
  [ (0, 0, (0, 0));
    (0, 0, (0, 0));
    (0, 0, (0, 0));
    (0, 0, (0, 0));
    (0, 0, (0, 0));
    (0, 0, (0, 0));
    (0, 0, (0, 0));
    (0, 0, (0, 0));
    (0, 0, (0, 0));
    (0, 0, (0, 0));
    (0, 0, (0, 0));
    (0, 0, (0, 0));
    (0, 0, (0, 0));
    (0, 0, (0, 0));
    (0, 0, (0, 0));
    (0, 0, (0, 0));
    (0, 0, (0, 0));
    (0, 0, (0, 0));
    (0, 0, (0, 0));
    (0, 0, (0, 0));
    (0, 0, (0, 0));
    (0, 0, (0, 0));
    (0, 0, (0, 0));
    (0, 0, (0, 0));
    (0, 0, (0, 0));
    (0, 0, (0, 0));
    (0, 0, (0, 0));
    (0, 0, (0, 0));
    (0, 0, (0, 0));
    (0, 0, (0, 0));
    (0, 0, (0, 0));
    (0, 0, (0, 0));
    (0, 0, (0, 0));
    (0, 0, (0, 0));
    (0, 0, (0, 0));
    (0, 0, (0, 0));
    (0, 0, (0, 0));
    (0, 0, (0, 0));
    (0, 0, (0, 0));
    (0, 0, (0, 0));
    (0, 0, (0, 0));
    (0, 0, (0, 0));
    (0, 0, (0, 0));
    (0, 0, (0, 0));
    (0, 0, (0, 0));
    (0, 0, (0, 0));
    (0, 0, (0, 0));
    (0, 0, (0, 0));
    (0, 0, (0, 0));
    (0, 0, (0, 0));
    (0, 0, (0, 0));
    (0, 0, (0, 0));
    (0, 0, (0, 0));
    (0, 0, (0, 0));
    (129818059685429272, 21177559122305769, (75247086290462679, 12275253709375666));
    (36877806616079173, 7519966133808968, (113616365964846185, 23168168139630197));
    (36877806616079173, 4699978833630605, (108030572311595550, 13768210472368987));
    (89027305385918409, 14182868008022522, (58483921078398283, 9317026160130503));
    (41199029508542995, 8204230082070882, (110338595787964147, 21972440554439869));
    (16479611803417198, 4102115041035441, (130039326657133705, 32369468660404747));
    (131836894427337584, 20510575205177205, (42487477134843939, 6610005483197744));
    (113967010968838855, 22163076575976641, (42487477134843939, 8262506853997180));
    (133661085909915023, 32491210143473116, (42487477134843939, 10328133567496475));
    (38948905312181716, 5917471504240083, (114186633253824165, 17348270587550656));
    (132958294597962031, 25250289874312751, (22837326650764833, 4337067646887664));
    (138338892989440391, 32840158256366163, (22837326650764833, 5421334558609580));
    (142643371702623079, 21163746866966464, (45674653301529666, 6776668198261975));
    (142643371702623079, 26454683583708080, (8011048300699117, 1485731481520359));
    (133341213283776344, 30911878028269157, (41346351621643203, 9585133858967738));
    (45067214989181897, 6529827774696322, (120318191497390915, 17433006872723023));
    (90134429978363794, 16324569436740805, (93194491588138263, 16878788154731914));
    (17414873673717865, 3942587679687424, (134144362155122931, 30369207347767513));
    (3482974734743573, 492823459960928, (143200643064449457, 20262172929269789));
    (3482974734743573, 616029324951160, (141727717382559435, 25067201663888837));
    (3482974734743573, 770036656188950, (141245971783996132, 31227494913400437));
    (13931898938974292, 1925091640472375, (137999997506598061, 19068659825113503));
    (102832253771780789, 17761533529466907, (47104658015883621, 8136075327105032));
    (72844871414247907, 15727514697690649, (119949529430131528, 25897608856571939));
    (98585084812612193, 13303084522812505, (77117760337751774, 10406280888565647));
    (131975346330347006, 22260963594254723, (88247847510330045, 14885220424286756));
    (139610856275935826, 29436105637696457, (17649569502066009, 3721305106071689));
    (137349502167996421, 18099570490739852, (141196556016528072, 18606525530358445));
    (137349502167996421, 22624463113424815, (30547543512424605, 5031847662303556));
    (140060925605495977, 28838867223539512, (6109508702484921, 1257961915575889));
    (86663468664954437, 11152629896397773, (135539538284833805, 17442439474277218));
    (92003214359008591, 14799745135286519, (54215815313933522, 8721219737138609));
    (132090183356383718, 26560227571499083, (14128846316558395, 2840978519032327));
    (129264414093072039, 16245019917307886, (22606154106493432, 2840978519032327));
    (16810421176017035, 2640765719810808, (140855879954024833, 22127189754594059));
    (3362084235203407, 660191429952702, (143162990415673457, 28112020028882545));
    (6724168470406814, 1650478574881755, (139972468352273195, 34356896485486859));
    (101960346844929593, 15641652262997923, (48166999081675081, 7389259388589148));
    (110468476924948723, 21183596804439784, (48166999081675081, 9236574235736435));
    (82720990035319554, 19828372637956327, (137694493181009939, 33005621908319251));
    (143974049445930907, 21569276895369604, (21989401258276154, 3294312317590731));
    (81569372909048951, 15275256176614594, (87957605033104616, 16471561587953655));
    (79014080059426685, 18495917515098712, (84124665758671217, 19692222926437773));
    (15802816011885337, 2311989689387339, (135701581665268278, 19853465193019339));
    (63211264047541348, 11559948446936695, (125117775606742745, 22881286391006712));
    (127727280583422647, 29198134245925085, (25023555121348549, 5720321597751678));
    (96133311451796447, 13734895358951909, (100094220485394196, 14300803994379195));
    (37661142773999029, 6725970520619133, (120905246389192585, 21592683150425614));
    (99503334825836575, 22213097089154236, (48362098555677034, 10796341575212807));
    (39801333930334630, 5553274272288559, (133746393327206191, 18660942529599179));
    (31841067144267704, 5553274272288559, (125786126541139265, 21937859593926834));
    (88839359596763261, 19367650579203106, (139153810213218967, 30336580376166523));
    (135069250373132327, 18403822198681708, (73429396004640239, 10005101416442019));
    (112771216952965122, 19207012515782873, (90473183532797917, 15409247283213611));
    (8919213368066882, 1898882616284631, (140809906909294865, 29978146434753188));
    (120162797617844447, 15989011453744023, (56323962763717946, 7494536608688297));
    (60832886017963079, 10118124438135943, (115653874363599314, 19236310639904457));
    (132629969705053405, 27574857645781986, (21928395338254494, 4559093100884257));
    (106103975764042724, 13787428822890993, (123434772499541031, 16039437993273566));
    (120392452222651946, 19555138649145203, (31619273194107529, 5135864083509678));
    (29185416972596261, 5925671261940343, (121609380333407580, 24691002732654881));
    (107014586078555554, 13579839760589149, (43780211227448287, 5555581486032866));
    (51561876676911879, 8178815251802791, (139122299131808453, 22067768966884956));
    (110323462509420697, 21874572745326821, (124722880820614575, 24729641976966508));
    (141958936068207808, 35183937795734581, (24944576164122915, 6182410494241627));
    (126992190369734059, 19671557186993503, (39911321862596664, 6182410494241627));
    (17416173701427479, 3372286673187969, (142229113748959177, 27539765798020166));
    (35412292230362827, 8571084786099026, (142809058576467046, 34565075350654311));
    (141649168921451308, 21427711965247565, (120865749445239907, 18283739222024982));
    (130713024200535867, 24716709017797777, (15859782098563421, 2998948433894954));
    (142633896396980904, 33713554319482639, (87176730297053873, 20605462702110012));
    (142592239400944950, 21064817559217751, (7940305298290699, 1173002704604941));
    (114073791520755960, 21064817559217751, (36458753178479689, 6732457770560614));
    (82088269786782073, 18947980992809643, (72917506356959378, 16831144426401535));
    (3668305371929078, 529209141602027, (143103657864709853, 20644890831121744));
    (136476859179552026, 24611092238815601, (60901818845917857, 10982523265402733));
    (112557918220195405, 25372188774158683, (131049357163476023, 29540427552854982));
    (94066479276914787, 13252468747163990, (86026189875397861, 12119720026994693));
    (141341418269501013, 24890943387790928, (15597180094776187, 2746742826706349));
    (93969799535263254, 20685700174014511, (78179259957184001, 17209707153773128));
    (119079975273547606, 16383273385571229, (78179259957184001, 10756066971108205));
    (8180143063272721, 1406801603615756, (140934035500008863, 24237501179610149));
    (8180143063272721, 1758502004519695, (142195743427788886, 30568108395881051));
    (124964836832175885, 16789965832817882, (59523692325994117, 7997455810219407));
    (49985934732870354, 8394982916408941, (144040352018423411, 24191130983752988));
    (11180677382611601, 2347200170470694, (144040352018423411, 30238913729691235));
    (64324547236936325, 8439928496349319, (83926384943426246, 11011856566521903));
    (51459637789549060, 8439928496349319, (122521113285588041, 20094767080414368));
    (41167710231639248, 8439928496349319, (122521113285588041, 25118458850517960));
    (90372559027740405, 11579735852664064, (122521113285588041, 15699036781573725));
    (18074511805548081, 2894933963166016, (128594217031390544, 20596504644548305));
    (18074511805548081, 3618667453957520, (135409494875098981, 27110106061671841));
    (18074511805548081, 2261667158723450, (133512437494637197, 16706437131543971));
    (36149023611096162, 5654167896808625, (129317924581156819, 20226971149070098));
    (133192118972591749, 26041180645179913, (11403975471792899, 2229658838863212));
    (108834490272431979, 26598595354895716, (120238465744224878, 29385668903474731));
    (124998745249101813, 19093160612665229, (30890078431920715, 4718361193651472));
    (141670071186126958, 27049565755379801, (6178015686384143, 1179590298412868));
    (139283722831714967, 33242414822047358, (6178015686384143, 1474487873016085));
    (109406551626613681, 16319826805138621, (49424125491073144, 7372439365080425));
    (63532270847074730, 11846133085109523, (130614386405683653, 24354164955255824));
    (50825816677659784, 11846133085109523, (130614386405683653, 30442706194069780));
    (95859082745246751, 13963861353405562, (119029285185538019, 17339081365330929));
    (9903735572932843, 1803355332388707, (142199487625829287, 25892876721570370));
    (40324380212685269, 9178252178975653, (121682578559009704, 27696232053959077));
    (143607005339568395, 20429038566776057, (16271639669264887, 2314747484372928));
    (131157243940919603, 23322472922242217, (16271639669264887, 2893434355466160));
    (134214746557412479, 29832700222041077, (16271639669264887, 3616792944332700));
    (130152092782900825, 18081043937311651, (32543279338529774, 4520991180415875));
    (110634535008270269, 19212021928503582, (117147395790219878, 20342999919695513));
    (83297339381056528, 18081043937311651, (68985865317742005, 14974505441973652));
    (126231761571000097, 17125412139578530, (27594346127096802, 3743626360493413));
    (102510521470071065, 17384045296621578, (110377384508387208, 18718131802467065));
    (41004208588028426, 8692022648310789, (118244247546703351, 25065272885390690));
    (138460633555820263, 18344198745217717, (87348231963233381, 11572482994099206));
    (37914607029681429, 6278978624084057, (136781856896785333, 22652228861163958));
    (139467899551241221, 28871325217171324, (12190528567484495, 2523567903248961));
    (129715476697253625, 16782794309107597, (19504845707975192, 2523567903248961));
    (97334131726327367, 15741555610891899, (90895882094851834, 14700316912676201));
    (118088607997887947, 23872643090891773, (35070702911645627, 7089848781784176));
    (132828648137987712, 16782794309107597, (35070702911645627, 4431155488615110));
    (74173881002182461, 11714763771015131, (70141405823291254, 11077888721537775));
    (119484704639270179, 23588746304399601, (57726114730189486, 11396326246276453));
    (70884327747783866, 17492536275338027, (80010065586487039, 19744547478022119));
    (120715514667416724, 18618541876680073, (69483495172411535, 10716777940017594));
    (116360738024492685, 22433604326660596, (27793398068964614, 5358388970008797));
    (23272147604898537, 5608401081665149, (134445739880756993, 32400345931709134));
    (109631450204059286, 16512688105425007, (71358584886494781, 10748029453974638));
    (117286023267572187, 22082024794643851, (86667731013520583, 16317366143193482));
    (142818086220540316, 33611342097544589, (5086229301083475, 1197012210073186));
    (142204506150526637, 20916837419390833, (4068983440866780, 598506105036593));
    (141390709462353281, 25996420247979393, (3255186752693424, 598506105036593));
    (61481046769943581, 14130057901211409, (135982840550660858, 31252646327605783));
    (19384119903667954, 2784381844007111, (139311527609600577, 20011044610989412));
    (74384193290723205, 13355906684768686, (71231906966774594, 12789904149501817));
    (29753677316289282, 6677953342384343, (127586975275404547, 28635783702562371));
    (138581368856980181, 19439612150983111, (39133319183646106, 5489457590044507));
    (19889609934666815, 3487538640234651, (136643666799917609, 23959749309987884));
    (15911687947733452, 3487538640234651, (136643666799917609, 29949686637484855));
    (127293503581867616, 17437693201173255, (36875746128623593, 5051537819773601));
    (121335640650794865, 20776921214557517, (26167343863699507, 4480767884310488));
    (97068512520635892, 20776921214557517, (123235856384335399, 26377881069945627));
    (111248746252023169, 14882570928994624, (109055622652948122, 14589180498819841));
    (111248746252023169, 18603213661243280, (42744999621549230, 7147895034322529));
    (111248746252023169, 23254017076554100, (34195999697239384, 7147895034322529));
    (123284394487654056, 16106122042231571, (49606549008196141, 6480699651730527));
    (14735569095891583, 2406355597625261, (139483919649218232, 22778075868151591));
    (120630071881610258, 24623993721014731, (30843897749021963, 6296107866444213));
    (71828939306070636, 9163942927285259, (79645030324561585, 10161120564876581));
    (87757945370982953, 13995208800325719, (63716024259649268, 10161120564876581));
    (9616768444533474, 1917044117724569, (141857201186098747, 28278367588778306));
    (32218147615033139, 8028113956056861, (122623664297031799, 30555349191661460));
    (106847428065966499, 16640142899325966, (50299250951432871, 7833475626986113));
    (125717343213919496, 24473618526312079, (81728586754912745, 15910249165310661));
    (142063060564902045, 34569585449217764, (65382869403930196, 15910249165310661));
    (56825224225960818, 8642396362304441, (119468417050818739, 18169632007515550));
    (134053350702747122, 25484769445459989, (46623773100548075, 8863606183031108));
    (135248954146275043, 32140080759715534, (9324754620109615, 2215901545757777));
    (138978855994318889, 20641525861261653, (14919607392175384, 2215901545757777));
    (84490279289130237, 15685913807664854, (59678429568701536, 11079507728788885));
    (141087294699642206, 32741682869249219, (6973315969654567, 1618275412478229));
    (99993671953025371, 14503259768126022, (51926733236753969, 7531545610172389));
    (121536324151823472, 22034805378298411, (82310814274709837, 14923133357290089));
    (15690203950845454, 3555836010504161, (141086322623151493, 31974079377468981));
    (37631386895137571, 5330198426122683, (137898076659199365, 19532208930337976));
    (122945932248710411, 21767939898028921, (27579615331839873, 4883052232584494));
    (54694295965852139, 12104733007160584, (109853526629531885, 24312363588621819));
    (54694295965852139, 7565458129475365, (121071346641398877, 16746905459146454));
    (126593208434167294, 21888379788328233, (46091987714620631, 7969455429524296));
    (138148156919030340, 29857835217852529, (46091987714620631, 9961819286905370));
    (9167275052991505, 1238321750147276, (138531575593524999, 18712939466527045));
    (1833455010598301, 309580437536819, (143432380000080572, 24218679324387769));
    (7333820042393204, 1547902187684095, (143460759663469757, 30279339068353029));
    (131546140060919719, 17352873127908254, (24291859907258029, 3204454063162593));
    (91485431875980734, 15085344690279313, (94326435752506425, 15553807503046139));
    (110350719026482019, 22745132738610676, (75461148602005140, 15553807503046139));
    (49981800144877907, 6438804210108603, (120737837763208224, 15553807503046139));
    (54136647639568389, 8717555033342987, (124892685257898706, 20111309149514907));
    (144079161858630197, 29001103629071941, (71611733158986838, 14414432091428947));
    (117316998784479808, 14758910983857041, (43138179003523407, 5426941965062611));
    (32091035557600643, 5046463237229913, (140461680456492985, 22088246588083142));
    (92274407206499883, 18138219740095568, (56184672182597194, 11044123294041571));
    (100312382069977685, 24647788099113247, (108350356933455487, 26622801523107034));
    (12024501550517735, 1846590122393039, (136450808210928826, 20954607854327169));
    (9619601240414188, 1846590122393039, (138855708521032373, 26654907348507221));
    (96780866849199287, 23222713225568234, (51694442912247274, 12404158613057091));
    (106885813653625779, 16029631418698471, (40033950534738767, 6003878806460302));
    (130829016637875599, 24525482427115066, (80067901069477534, 15009697016150755));
    (110524570410516373, 25898960328411677, (69915677955797921, 16383174917447366));
    (60453385146093930, 8853686434843997, (109604663338548877, 16052125429387209));
    (48362708116875144, 8853686434843997, (97513986309330091, 17851735178023012));
    (19187369231634097, 4390752640338244, (135888724772598285, 31096174253205253));
    (127898349049712725, 18292307526814029, (89523610586444531, 12803866726391224));
    (102318679239770180, 18292307526814029, (89523610586444531, 16004833407989030));
    (81854943391816144, 18292307526814029, (130451082282352603, 29152195523393302));
    (13303521800511874, 1858104882558689, (134518707459842403, 18788248019934082));
    (74796419973811227, 13058533976497621, (96378752745574958, 16826543540201797));
    (115357805403745217, 25175065562069198, (68470069087754474, 14942538758349709));
    (50459588715850833, 6882517884846077, (144083842975229128, 19652550712979929));
    (126938951455900696, 21642556596096533, (18724850851875659, 3192508207033463));
    (29132760461555271, 6208766200782499, (133164924330613178, 28380073436732313));
    (141528797800547438, 18851612460931475, (9153328589189473, 1219221854298102));
    (98716830630490551, 16436331892679824, (117023487808869497, 19484386528425079));
    (133105522499291818, 27702552474764991, (34388691868801267, 7157137608915211));
    (31719144883253317, 4125961770236062, (133995371494474468, 17429845041840101));
    (132571613102182228, 21555806812076163, (34566661667837797, 5620451193243004));
    (133710619816016020, 27176258005319167, (34566661667837797, 7025563991553755));
    (143516152363914295, 18230750808813358, (7824537704634593, 993945244056201));
    (101758766827617763, 16157926216750521, (44352305882052045, 7042550812343842));
    (141424305420362663, 28070351620274579, (17740922352820818, 3521275406171921));
    (131182210730433277, 32546834599815072, (70963689411283272, 17606377030859605));
    (131182210730433277, 20341771624884420, (34832576619793269, 5401314055928953));
    (131182210730433277, 25427214531105525, (80338945588007926, 15572199868371163));
    (62641537320658381, 15177360931236353, (86238081677124441, 20894546136873154));
    (115844456898730338, 17542404862636241, (76799463934538017, 11629795034136521));
    (77057568333307342, 14586099948386381, (115070143702422363, 21781437611148112));
    (38632025926161401, 9140740545599353, (115070143702422363, 27226797013935140));
    (115730890963271835, 17114460445140922, (38136465480524297, 5639678607426001));
    (46292356385308734, 8557230222570461, (99419109153702961, 18377811629850233));
    (121727005878419807, 28126836019531326, (58284586215604678, 13467520926210347));
    (99444738081620026, 14361366551543321, (94286904634409575, 13616495197099176));
    (133775619350133294, 24149099567869489, (18857380926881915, 3404123799274794));
    (143092524582845949, 32288727575656672, (7542952370752766, 1702061899637397));
    (113099571469000169, 15950524244418863, (60343618966022128, 8510309498186985));
    (132684419177582568, 23390738990650741, (13586257085813243, 2395101062535523));
    (98631411426688081, 21734481102425221, (50992146589980351, 11236662138367612));
    (89103558459346535, 12271823318508562, (101984293179960702, 14045827672959515));
    (35641423383738614, 6135911659254281, (114865027900574869, 19774790034263085));
    (142565693534954456, 30679558296271405, (15844720903367251, 3409719593752201));
    (50688389052634882, 6817459675629801, (139411467192421327, 18750488497825204));
    (68433004680592171, 11505081800086102, (139411467192421327, 23438110622281505));
    (136866009361184342, 28762704500215255, (69451187813086965, 14595325761162278));
    (93158930408342575, 12235976263380367, (55560950250469572, 7297662880581139));
    (111456308495475117, 18299060798261699, (36929164168801057, 6063084534881332));
    (133480043798941362, 27393687600583697, (36929164168801057, 7578855668601665));
    (19310175926028061, 2476853991497754, (140951905942183968, 18079446411026293));
    (38620351852056122, 6192134978744385, (129759430895780219, 20804779665127478));
    (143977661969890893, 28855547466812248, (10503745438333595, 2105127426909677));
    (143977661969890893, 18034717166757655, (16805992701333752, 2105127426909677));
    (32156730934244929, 5034961148416833, (131537432673824866, 20595559431382051));
    (128626923736979716, 25174805742084165, (32738832721613959, 6407630144949721));
    (64546302583437470, 15791217943516943, (97750816734946653, 23914684334132774));
    (103274084133499952, 15791217943516943, (71932295701571665, 10998873222953748));
    (139753612868027481, 26711441908554412, (14386459140314333, 2749718305738437));
    (50969057198108429, 12177297088615477, (108514893759365761, 25925888617307662));
    (121010381402830449, 18069533827913627, (44721313376376085, 6677883959336504));
    (135215281275588333, 25238300536037221, (8944262675275217, 1669470989834126));
    (138162181657822373, 32235434398569591, (17888525350550434, 4173677474585315));
    (38365551541894735, 5594558352790692, (143108202804403472, 20868387372926575));
    (7673110308378947, 1398639588197673, (142738633948392856, 26018119925563187));
    (30692441233515788, 6993197940988365, (116021184305198567, 26435144113207637));
    (32042157359288705, 4562954669460956, (117370900430971484, 16714171027098001));
    (6408431471857741, 1140738667365239, (142653596659141145, 25393183099862816));
    (105431896994121121, 23459375785444289, (79798171106690157, 17755682448618094));
    (52426249152620834, 7290767280567621, (133383217637069897, 18549219420488807));
    (4779105964158521, 830770605303514, (142797513112264042, 24823047928588909)) ].

Definition s2dinv_certs : list (Z * Z * (Z * Z)) :=
  [ (5, 1, (144115188075855869, 28823037615171174));
    (25, 4, (144115188075855856, 23058430092136937));
    (125, 16, (144115188075855789, 18446744073709541));
    (625, 128, (144115188075855708, 29514790517935249));
    (3125, 512, (144115188075853302, 23611832414347805));
    (15625, 2048, (144115188075846138, 18889465931477305));
    (78125, 16384, (144115188075789361, 30223145490351781));
    (390625, 65536, (144115188075802809, 24178516392283681));
    (1953125, 262144, (144115188075493671, 19342813113785453));
    (9765625, 2097152, (144115188073157412, 30948500981555017));
    (48828125, 8388608, (144115188043679978, 24758800780179829));
    (244140625, 33554432, (144115187904474682, 19807040605011633));
    (1220703125, 268435456, (144115187245383554, 31691264823082941));
    (6103515625, 1073741824, (144115184140447451, 25353011312240217));
    (30517578125, 4294967296, (144115186721147019, 20282409412993349));
    (152587890625, 34359738368, (144115171197809393, 32451851565244481));
    (762939453125, 137438953472, (144114539564589067, 25961367467270157));
    (3814697265625, 549755813888, (144112169131869923, 20768752358458985));
    (19073486328125, 4398046511104, (144111223442509131, 33229785712414229));
    (95367431640625, 17592186044416, (144026653822053064, 26568228228481745));
    (476837158203125, 70368744177664, (143771861209419516, 21216981829848413));
    (2384185791015625, 562949953421312, (143618073837700877, 33910858911272825));
    (11920928955078125, 2251799813685248, (140212646816358813, 26485420152000485));
    (59604644775390625, 9007199254740992, (139361290061023297, 21059682726196833));
    (49635064114686541, 12001022113294419, (99482967418206961, 24053505584750260));
    (37173088288806436, 7190320996344367, (136656055707013397, 26433125464144575));
    (46466360361008045, 7190320996344367, (136656055707013397, 21146500371315660));
    (80287496115760052, 19878221219133763, (136656055707013397, 33834400594105056));
    (100359370144700065, 19878221219133763, (76440433620193358, 15140587743803787));
    (141046603050918493, 22349726377206205, (7150640142794986, 1133064158628767));
    (79461601703952979, 10072954709511249, (97338202060940444, 12339083026768783));
    (107025127298311913, 21707274697473241, (76232626624829156, 15461813583670269));
    (87966970642104624, 14273457041244539, (95290783281036445, 15461813583670269));
    (117282525941562601, 15224142275185123, (124606338580494422, 16174827509125707));
    (137448391628288475, 28546914082489078, (17406745482294758, 3615239595401375));
    (139091719653757781, 23110575968205231, (8703372741147379, 1446095838160550));
    (141227001787894555, 18772288453723581, (8703372741147379, 1156876670528440));
    (143750877342248638, 30572430493113669, (8703372741147379, 1851002672845504));
    (66399523929577986, 11297293582590145, (109916387635314881, 18701304273972161));
    (33199761964788993, 4518917433036058, (125392040246736734, 17067480099282061));
    (90373469451617326, 19681598778786221, (105121598530907013, 22893456872070199));
    (15219302823259488, 2651576518443653, (134617856689486387, 23453738446910524));
    (19024128529074360, 2651576518443653, (127008205277856643, 17702360150150958));
    (11890080330671475, 2651576518443653, (143654317740796708, 32035983366062647));
    (107497399862412779, 19178176990689826, (131520898966940481, 23464112449147433));
    (47742825155074464, 6814083704584409, (107801572916393719, 15385954621499623));
    (29839265721921540, 6814083704584409, (131672985493930951, 30068794358066924));
    (37299082152401925, 6814083704584409, (139132801924411336, 25417852227370421));
    (2515881671299091, 367696518193443, (143725422349925078, 21005494009049105));
    (111842353592570220, 26153245263757307, (42221059765728997, 9872983676393414));
    (139802941990712775, 26153245263757307, (98142236562014107, 18359685046617654));
    (52075881785873335, 7793560217139653, (129387765633538108, 19363884167577915));
    (114016233760491074, 27301464035043029, (32346941408384527, 7745553667031166));
    (77024470552699559, 14754957207446005, (84710236489223076, 16227257460678659));
    (77024470552699559, 11803965765956804, (105887795611528845, 16227257460678659));
    (107104335087935431, 26261906548746721, (121535997617350074, 29800539904524205));
    (115840840698150985, 22723273192969237, (60767998808675037, 11920215961809682));
    (13768210472368987, 2160611446231911, (138621468374947341, 21753526492455796));
    (134474893018411991, 16882251686636243, (65633840656567056, 8239805901708599));
    (126270662936341109, 25363641518276269, (41021150410354410, 8239805901708599));
    (93901194275936362, 15089340148335667, (102552876025886025, 16479611803417198));
    (19149457694009259, 2461759367634521, (139005697219794610, 17869883458498729));
    (63475610845962541, 13056175865722342, (110815382879883205, 22793402193767771));
    (138786164700405248, 22837326650764833, (98980439871403039, 16287276489405131));
    (5109183653900897, 672574798934795, (142827603952101178, 18801877857156063));
    (108426691172191600, 22837326650764833, (103317507518290703, 21761206972469161));
    (135533363965239500, 22837326650764833, (21997489139147003, 3706569587516429));
    (45769192843472747, 6169674990292790, (123647512113076628, 16667651660472043));
    (100164291492409266, 21603391652706275, (54395098648936519, 11731911668237811));
    (50082145746204633, 8641356661082510, (110946673749238981, 19143145005934367));
    (50082145746204633, 6913085328866008, (126162805749997568, 17414873673717865));
    (140018273699775293, 30923859487723053, (15770350718749696, 3482974734743573));
    (143960861379462717, 25435682537127157, (19712938398437120, 3482974734743573));
    (139032626779853437, 19651951082753011, (24641172998046400, 3482974734743573));
    (135952480155097637, 30746526785456103, (15400733123779000, 3482974734743573));
    (139802663436042387, 25293816375313597, (19250916404723750, 3482974734743573));
    (103590435426287756, 14993691178766441, (48127291011809375, 6965949469487146));
    (129488044282859695, 29987382357532882, (37012449934190657, 8571497811343005));
    (134100717902931626, 24844483670727079, (37012449934190657, 6857198249074404));
    (119081763394294048, 17649569502066009, (141075258819847127, 20909310666809878));
    (74426102121433780, 17649569502066009, (126190038395560371, 29924983166482603));
    (93032627651792225, 17649569502066009, (70370461804485036, 13350244831946477));
    (128217858554034743, 19459753534431398, (87963077255606295, 13350244831946477));
    (133249706216338299, 32357507395587221, (108090467904820519, 26247998693102300));
    (139539515794217744, 27107907656966761, (108090467904820519, 20998398954481840));
    (66333926837951661, 10309188493381289, (108090467904820519, 16798719163585472));
    (11363914076129308, 2825769263311679, (138483094895560069, 34435430470751769));
    (14204892595161635, 2825769263311679, (141324073414592396, 28113498229263751));
    (113276714492781103, 18027245523653530, (134402840251267567, 21389329758856937));
    (113276714492781103, 14421796418922824, (139684371690889183, 17783880654126231));
    (126480543091835143, 25764541658439244, (142985328840652693, 29126625893642651));
    (93470971594200043, 15232298550425944, (67366467983121959, 10978233510416379));
    (6526125902769521, 850813008001913, (141048562832524165, 18388543801608126));
    (52708997081451696, 10994700629138077, (125496361730507483, 26177597823398927));
    (65886246351814620, 10994700629138077, (138673611000870407, 23141018384546757));
    (82357807939768275, 10994700629138077, (72787364649055787, 9717054204326944));
    (79965197117090153, 17080462436696470, (73983670060394848, 15802816011885337));
    (79965197117090153, 13664369949357176, (92479587575493560, 15802816011885337));
    (33725403329343373, 4610369554731606, (115599484469366950, 15802816011885337));
    (114406431955033560, 25023555121348549, (126443601407703611, 27656385882317399));
    (143008039943791950, 25023555121348549, (12037169452670051, 2106264608775080));
    (136629956845394759, 19126014216778325, (12037169452670051, 1685011687020064));
    (107963415752128070, 24181049277838517, (98407902054372507, 22040858121502916));
    (136629956845394759, 24481298197476256, (22213097089154236, 3980133393033463));
    (119970134028529082, 17196958522160927, (27766371361442795, 3980133393033463));
    (71642090549296463, 16431103552144682, (105236973678255219, 24136085348206193));
    (134885460316353237, 24748769324219189, (88439532113775841, 16226875560140350));
    (58057410253221745, 8521893764078839, (88439532113775841, 12981500448112280));
    (69450705950929531, 16310794032946207, (88439532113775841, 20770400716979648));
    (39472559516176343, 7416238949985171, (126417184439468461, 23751691268037224));
    (114417925603059313, 17197783712731726, (41472435988911201, 6233586043604479));
    (77945180795985257, 18745095805068964, (110299430583127944, 26525993941010681));
    (50370323150203271, 9690877855853035, (137874288228909930, 26525993941010681));
    (50370323150203271, 7752702284682428, (96787375560832506, 14896940513987039));
    (24691002732654881, 6080469016670379, (143204427971461741, 35265885989266640));
    (123455013663274405, 24321876066681516, (128392367240321239, 25294584247864465));
    (58024491648852077, 9145125517962837, (128392367240321239, 20235667398291572));
    (127469260224262902, 16072142659859927, (35183937795734581, 4436216752131494));
    (24729641976966508, 4988915232824583, (126460405024739889, 25511903551402786));
    (30912052471208135, 4988915232824583, (138825226013223143, 22405088934252062));
    (34845811556912518, 4499029632233837, (119714450799128157, 15456631299064495));
    (51707244922852363, 10681682151859635, (119714450799128157, 24730610078503192));
    (51707244922852363, 8545345721487708, (110862629806770924, 18321600787387411));
    (131130147297397457, 17336873311857815, (134854217277930556, 17829237049622613));
    (131130147297397457, 27738997298972504, (18718812150007869, 3959738400136361));
    (74924479723702663, 12679494279643546, (84259270236871004, 14259223940094495));
    (142909405467118054, 19347684450366295, (21064817559217751, 2851844788018899));
    (88389395264823891, 19146452932222114, (96856741530456323, 20980605618186653));
    (79922048999191459, 13849840197006060, (90506231831231999, 15683992882970599));
    (79922048999191459, 11079872157604848, (93152277539242134, 12914024843569387));
    (71585571441798861, 15878651557839695, (101488755096634732, 22511583644039081));
    (71585571441798861, 12702921246271756, (126860943870793415, 22511583644039081));
    (137507399282751237, 19520645053883117, (27637686214497277, 3923464959106930));
    (123943943096653279, 28152267963918363, (27637686214497277, 6277543934571088));
    (141323908197860194, 25679922286750541, (93170779756782193, 16930032675011631));
    (48153128441078001, 6999911689391128, (104425192585708241, 15180054752663849));
    (55187136459156781, 12835887315680349, (90357176549550681, 21016030378953070));
    (136751802986108987, 25445505543052191, (90357176549550681, 16812824303162456));
    (23197313218279153, 3453072495955894, (121505031891620514, 18086822374523389));
    (55783427118441082, 13285967463581181, (107147142382368563, 25519289886677572));
    (139458567796102705, 26571934927162362, (67519427970794552, 12864909447387265));
    (140257558221458471, 21379337355893499, (16879856992698638, 2572981889477453));
    (117353692394770478, 28620993680281533, (42199642481746595, 10291927557909812));
    (66915448055204561, 13055825185004995, (92637886821312512, 18074511805548081));
    (66915448055204561, 10444660148003996, (115797358526640640, 18074511805548081));
    (95864787686864721, 23941260959025626, (72373349079150400, 18074511805548081));
    (113958124956652321, 22767911128330117, (90466686348938000, 18074511805548081));
    (46108110194948821, 7369621819335245, (113083357936172500, 18074511805548081));
    (46108110194948821, 5895697455468196, (141354197420215625, 18074511805548081));
    (127176036390530403, 26018552691888761, (23811521806316701, 4871525740031954));
    (37746889549211776, 6178015686384143, (119057609031583505, 19486102960127816));
    (47183611936514720, 6178015686384143, (137931053806189393, 18060088642655910));
    (29489757460321700, 6178015686384143, (137931053806189393, 28896141828249456));
    (36862196825402125, 6178015686384143, (115813735710948118, 19410104050769079));
    (136926451786572533, 18358835660829099, (47384532340438092, 6353227084707473));
    (86232425520950551, 18499004779487763, (59230665425547615, 12706454169414946));
    (125211770874945964, 21488836793078477, (45729785377846147, 7848143091502830));
    (110784928215836308, 15210322319876213, (45729785377846147, 6278514473202264));
    (138481160269795385, 30420644639752426, (64409240769861689, 14149004970487539));
    (101445200519828537, 17827859844095986, (110300501664739954, 19384080018927085));
    (115737374218646400, 16271639669264887, (55150250832369977, 7753632007570834));
    (113018937941693177, 25423122947525244, (40683079055039177, 9151483278260357));
    (90419823608317500, 16271639669264887, (58767043776702677, 10575514556461263));
    (113024779510396875, 16271639669264887, (36162087874623302, 5206083711316033));
    (59898021767894608, 13797173063548401, (90405219686558255, 20824334845264132));
    (74872527209868260, 13797173063548401, (120354230570505559, 22178337101630666));
    (93590659012335325, 13797173063548401, (139072362372972624, 20502104294014213));
    (76206613715713747, 17975056042874599, (86920226483107890, 20502104294014213));
    (16373250237079901, 3089601558346997, (135434315022370220, 25556200796293441));
    (82978329466832258, 12526283899291481, (84090407748265011, 12694161565194974));
    (10094271612995844, 2438105713496899, (136785922376109737, 33038395602687631));
    (12617839516244805, 2438105713496899, (134262354472860776, 25943095339450725));
    (130220374817654413, 20129660989767886, (33565588618215194, 5188619067890145));
    (141796975635683520, 35070702911645627, (16782794309107597, 4150895254312116));
    (123130526035870237, 24363137950437069, (69014832527136074, 13655572989228511));
    (9804138622583063, 1551911386637721, (143124665450090996, 22655411818543859));
    (100974748592794687, 12786752055348074, (126951776332734373, 16076305309746669));
    (135959821143470741, 27547236063335305, (12988513869969843, 2631642603518876));
    (135959821143470741, 22037788850668244, (50225597623329989, 8141089816185937));
    (107167779400175940, 13896699034482307, (71659153503365177, 9292211659845211));
    (76017494026748566, 15771788748565553, (94092757830025773, 19521968176732045));
    (47975488618422821, 7963001477872735, (142068246448448594, 23580576019258371));
    (47975488618422821, 6370401182298188, (105622075132926511, 14024974245811089));
    (4788048840292744, 1017245860216695, (139328417445966481, 29601046393834909));
    (1197012210073186, 203449172043339, (143622446176020473, 24410668091317018));
    (2992530525182965, 406898344086678, (143931208744919693, 19570517329015747));
    (133988176885972027, 29149680161748226, (59512762130028601, 12947246704527401));
    (37237707377971713, 6480973382888330, (130163051636085646, 22654006717610637));
    (37237707377971713, 5184778706310664, (144084960856121201, 20061617364455305));
    (87831321440712112, 19566659591823053, (77305427432277771, 17221749124983847));
    (109789151800890140, 19566659591823053, (55347597072099743, 9864067381622467));
    (137236439751112675, 19566659591823053, (27900309121877208, 3977921986933363));
    (126773823830408722, 28919902154756867, (17437693201173255, 3977921986933363));
    (86361521272219914, 15760772498080775, (57849995759362063, 10557486815271409));
    (43180760636109957, 6304308999232310, (123034609080350179, 17962819130926663));
    (43180760636109957, 10086894398771696, (103884606072787585, 24267128130158973));
    (88708644713618178, 16577655757849723, (75879806795847035, 14180233731387277));
    (28591580137290116, 4274499962154923, (135996871372175097, 20331811629234677));
    (135903438512151574, 32508549159576449, (100163963340538929, 23959549235266603));
    (84057841298307358, 16085529526021931, (80530610211157855, 15410549310956757));
    (87585072385456861, 13408407792869684, (61279765430155767, 9381325629587089));
    (86464196895932619, 21178900557143735, (73311543418282072, 17957234826517659));
    (86464196895932619, 16943120445714988, (91639429272852590, 17957234826517659));
    (101611205648765810, 15929006064912317, (66141955766179457, 10368695143589527));
    (109279382119664086, 13704881696383201, (73810132237077733, 9256632959324969));
    (22527235235604599, 4520275834099933, (138035043885532621, 27697871780933206));
    (102808374796173209, 16503479713293202, (97894474105248316, 15714667901739937));
    (127281993322485288, 16345717350982549, (122368092631560395, 15714667901739937));
    (79551245826553305, 16345717350982549, (138278341796871056, 28412612112980409));
    (55393735305453318, 9105580493783833, (114120831275771069, 18759096303382121));
    (70908849464248864, 9324754620109615, (74242210129113297, 9763102872761179));
    (8863606183031108, 1864950924021923, (140757289886757677, 29616098957519434));
    (11079507728788885, 1864950924021923, (136325486795242123, 22946898796406778));
    (55397538643944425, 7459803696087692, (114407802732529947, 15406095118608509));
    (68343741943770257, 14725012301602134, (104321975637975934, 22476708633549701));
    (128596106825149369, 22165356488632501, (44069610756596822, 7596020259488967));
    (53280650723425479, 7346938543555207, (110174026891492055, 15192040518977934));
    (67503994765442123, 14893142459857422, (103062354870483733, 22738244435280149));
    (92366402121902782, 16302750556744361, (60420767461502269, 10664318169196605));
    (85247618921627343, 12037023289065719, (60420767461502269, 8531454535357284));
    (97249454354487276, 21970705325906377, (84836028624424739, 19166250322939629));
    (133460755801668377, 24121282388714254, (11898937858559282, 2150577062807877));
    (109662880084549813, 15856102610478800, (69705112365474009, 10078628368047277));
    (139520715302402342, 32277172022717597, (29857835217852529, 6907407845951517));
    (129476028086906229, 23962721362609466, (139382602088084437, 25796176373207767));
    (131952671587200781, 19536868092207233, (12383217501472760, 1833455010598301));
    (125761062836464401, 29792224939052932, (133500573774884876, 31625679949651233));
    (92385919392743182, 17508643961312099, (74489797825862913, 14117035988339134));
    (106534338457488843, 16152000772122913, (88638216890608574, 13438714393744541));
    (15553807503046139, 3773057430100257, (143826504711290740, 34889570424476879));
    (77769037515230695, 15092229720401028, (67064241183914963, 13014805973055787));
    (72416639349572829, 11242814277382726, (131452283285000993, 20408204807420211));
    (129385409930432429, 32139710367478425, (14758910983857041, 3666156212014994));
    (115487696177645623, 22949982432502049, (101589982424858817, 20188196571021358));
    (129385409930432429, 20569414635186192, (47320562774232707, 7522921456112405));
    (126241340332366006, 16055661761518749, (47320562774232707, 6018337164889924));
    (59170643318195429, 12040731922867219, (98591152396452988, 20062476413995537));
    (108466219516421923, 17657576103891990, (123238940495566235, 20062476413995537));
    (108466219516421923, 14126060883113592, (126932120740352313, 16530961193217139));
    (124041586130570910, 25847221456123637, (34041267838079377, 7093364539307565));
    (138031348744173949, 23009875640400611, (34041267838079377, 5674691631446052));
    (94080055902682397, 12546543412104595, (76126283287714488, 10152223113679613));
    (94080055902682397, 20074469459367352, (141658982957503952, 30226692573046965));
    (116252822119652105, 19844492691375478, (35414745739375988, 6045338514609393));
    (125106508554496102, 17084661856022261, (44268432174219985, 6045338514609393));
    (124384697012821012, 27177744954519657, (115242285961306979, 25180151023798267));
    (9142411051514033, 1598075144577112, (137196049162998199, 23981594665365433));
    (118881285364826281, 16624168502285466, (36584615053628058, 5115933961988509));
    (61731859513131121, 13811974947698099, (91461537634070145, 20463735847954036));
    (76596698573600633, 13710284318260854, (113758796224774413, 20362045218516791));
    (143902872734407821, 20606102729166179, (95177747399187523, 13628931814711058));
    (114017795217708403, 26122757457890439, (35407592365788687, 8112277085986798));
    (94365244504728474, 17296109891931623, (90467735444557303, 16581739411959605));
    (72722687908631941, 10663414127147781, (90467735444557303, 13265391529567684));
    (40797605838297311, 9571522262686186, (124175324015649980, 29132760461555271));
    (132146592349276749, 24802319148284741, (71841436842209806, 13483769902460003));
    (84033655385190826, 12617681639805897, (95569936720333689, 14349858165114109));
    (139438760334720808, 33498842873618617, (68793382206464551, 16526959188013646));
    (925997960895853, 177969799036530, (143740517708837861, 27625839505413127));
    (925997960895853, 142375839229224, (143330227170885096, 22037587815666085));
    (140511279831075100, 34566661667837797, (27176258005319167, 6685530990800801));
    (89480335968407109, 17610181918848841, (135881290026595835, 26742123963203204));
    (56340406498750736, 8870461176410409, (116002385145471815, 18263884088708726));
    (70425508123438420, 8870461176410409, (101917283520784131, 12837015035684899));
    (88031885154298025, 17740922352820818, (59761830275821868, 12043704263830001));
    (58150970016387091, 9375256176724654, (132853257861164426, 21418960440554655));
    (112164110575676621, 14466720265338377, (66426628930582213, 8567584176221862));
    (5717185205636801, 1179827217823303, (143466032866896632, 29606375221605897));
    (115907101095639372, 19135339883942173, (87321175067455367, 14416031012648961));
    (144102177878097539, 19032098124434443, (390849245725838, 51620879753865));
    (143925310962266179, 30413981869346093, (195424622862919, 41296703803092));
    (45312853482270927, 7660330459147333, (136915683561127376, 23146178192654367));
    (11083932591989083, 1499028728786993, (137892806675441971, 18649092006293388));
    (134675209262103470, 29142293107802339, (15851109260431611, 3430012655501279));
    (108931961576793408, 18857380926881915, (99039823151914957, 17144937491922982));
    (27232990394198352, 3771476185376383, (141170240634996209, 19550559557798949));
    (17020618996373970, 3771476185376383, (127553745437897033, 28263714344177212));
    (42551547490934925, 7542952370752766, (136114503453537889, 24128504767950587));
    (80873164491503293, 11468864730927510, (65942286481585666, 9351472376041777));
    (122864440347733729, 27878036536825562, (143860078275848947, 32641963020496335));
    (45685491727780451, 8292858724527761, (143860078275848947, 26113570416397068));
    (115914630092578026, 16832716297618279, (119316431638831823, 17326713994743793));
    (44318436671280209, 10297228857421173, (109079354810076816, 25344194526317441));
    (105685471311321423, 19644510352547327, (115906712045079622, 21544405077137365));
    (119330288221954030, 17744615627957289, (57953356022539811, 8617762030854946));
    (58381303044649112, 13890237562617393, (114622870978751719, 27271383558987389));
    (72976628805811390, 13890237562617393, (85432219456427163, 16261011822142954));
    (133497666961007007, 20327760692567380, (24471952526760734, 3726357216333703));
    (97338774138954421, 23714922986721310, (79259327727928128, 19310175926028061));
    (97338774138954421, 18971938389377048, (99074159659910160, 19310175926028061));
    (47801694308999341, 7453480341090414, (123842699574887700, 19310175926028061));
    (8420509707638708, 2100749087666719, (137962355053332209, 34418853676722684));
    (10525637134548385, 2100749087666719, (140067482480241886, 27955232758911491));
    (50805326321883049, 8111945456982361, (99787793292907222, 15932840020280207));
    (455714837714719, 58210178736903, (143743640882453247, 18360918573598918));
    (128608317736709139, 26284202463270212, (31582435887033886, 6454630258343747));
    (87990985783629984, 14386459140314333, (78956089717584715, 12909260516687494));
    (109988732229537480, 14386459140314333, (34960596825769723, 4572824757224262));
    (68742957643460925, 14386459140314333, (76206371411846278, 15948395095747419));
    (53423071674692032, 8944262675275217, (137092856854923663, 22952527516219621));
    (66778839593365040, 8944262675275217, (110381321017577647, 14784316942865610));
    (41736774745853150, 8944262675275217, (110381321017577647, 23654907108584976));
    (104341936864632875, 17888525350550434, (44756466822325536, 7673110308378947));
    (126720170275795643, 17380064403791926, (55945583527906920, 7673110308378947));
    (133713368216784008, 29342725107742871, (34965989704941825, 7673110308378947));
    (65319036457646181, 11467146817942565, (101822673813333829, 17875578289800306));
    (65319036457646181, 9173717454354052, (110948583152255741, 15582148926211793));
    (88133809804950961, 19804693104452676, (116652276489081936, 26213124576310417));
    (29807671560409993, 5358504653037974, (116007674050942427, 20854619923272443));
    (125876851084068084, 18103036082553221, (102715344366086203, 14772053552954546));
    (67092278568551612, 15438250058874281, (111023050419121343, 25546928070390682));
    (83865348210689515, 15438250058874281, (60703841492707634, 11174592420987977));
    (26756713732167849, 3940381539352117, (125002889999601236, 18408803302623837));
    (133783568660839245, 31523052314816936, (29003718116034079, 6834065892006461));
    (52389925272402583, 9875594569124190, (98704257926286489, 18605929068575017));
    (136477803725958757, 20581047982399855, (84087878453556174, 12680572327100503));
    (136477803725958757, 32929676771839768, (86674374964962298, 20912991520060445));
    (102839978161250573, 19850772199546557, (43337187482481149, 8365196608024178));
    (73088582821865861, 11286387523028294, (71798677295269942, 11087199454534209));
    (136234901836876040, 33659974500590797, (90393299382385387, 22333749363863686));
    (125741930368200316, 24853955118881537, (22275848463947367, 4403009690854630));
    (134901564496303028, 21331547366197833, (22275848463947367, 3522407752683704));
    (123452021836174638, 15616854621865663, (78277088051970491, 9902161877533493));
    (65863780201558112, 13330977524132795, (86552626618912077, 17518446657334118));
    (16465945050389528, 2666195504826559, (136376122187548881, 22082267542458410));
    (20582431312986910, 2666195504826559, (136376122187548881, 17665814033966728));
    (51456078282467275, 10664782019306236, (139578991025945134, 28929128753164475));
    (93745447949681904, 15543738287979577, (69789495512972567, 11571651501265790));
    (117181809937102380, 15543738287979577, (69789495512972567, 9257321201012632));
    (96934788422753894, 20572871957553133, (49542473998624081, 10514604618406021));
    (49004934105000514, 8320416238873035, (100697567678118863, 17097169757004979));
    (24502467052500257, 3328166495549214, (141482817459046001, 19217590284038495));
    (122512335262501285, 26625331964393712, (63627477905818732, 13828017543455341));
    (74791726833137236, 13003455045441765, (79534347382273415, 13828017543455341));
    (18697931708284309, 2600691009088353, (135900692995386749, 18902396046584422));
    (89442071994025041, 19904763465664673, (85394485446628537, 19003998858622522));
    (92477761904572419, 16464269536757029, (87418278720326789, 15563504929714878));
    (139981513652920036, 19937276365516865, (42444268564101987, 6045249050477521));
    (34995378413230009, 7974910546206746, (123608360616869972, 28168451475013457));
    (100892846980677511, 18393547168933485, (127701648875882488, 23280999321973471));
    (100892846980677511, 14714837735146788, (58734214114175599, 8566161586826683)) ].

Definition s2fpow_certs : list (Z * Z * (Z * Z)) :=
  [ (0, 0, (0, 0));
    (0, 0, (0, 0));
    (0, 0, (0, 0));
    (0, 0, (0, 0));
    (0, 0, (0, 0));
    (0, 0, (0, 0));
    (0, 0, (0, 0));
    (0, 0, (0, 0));
    (0, 0, (0, 0));
    (0, 0, (0, 0));
    (0, 0, (0, 0));
    (0, 0, (0, 0));
    (0, 0, (0, 0));
    (0, 0, (0, 0));
    (0, 0, (0, 0));
    (0, 0, (0, 0));
    (0, 0, (0, 0));
    (0, 0, (0, 0));
    (0, 0, (0, 0));
    (0, 0, (0, 0));
    (0, 0, (0, 0));
    (0, 0, (0, 0));
    (0, 0, (0, 0));
    (0, 0, (0, 0));
    (0, 0, (0, 0));
    (0, 0, (0, 0));
    (0, 0, (0, 0));
    (438024543, 22114588, (661740848, 33409375));
    (876049086, 27643235, (616997587, 19469011));
    (649028969, 25599679, (1039006439, 40981578));
    (571033475, 28154124, (883015451, 43536023));
    (114206695, 7038531, (1019514514, 62832433));
    (182730712, 7038531, (1042355853, 40150087));
    (730922848, 35192655, (610478737, 29393482));
    (1073121268, 64586137, (73918103, 4448784));
    (1007380240, 37893433, (73918103, 2780490));
    (624706405, 29373554, (772542611, 36324779));
    (249882562, 14686777, (920378817, 54095005));
    (865430997, 31790914, (268198502, 9852057));
    (626537999, 28769214, (775290002, 35599571));
    (1068267597, 61315553, (184808401, 10607482)) ].

Definition s2finv_certs_a : list (Z * Z * (Z * Z)) :=
  [ (20, 1, (1073741819, 53687091));
    (25, 1, (1073741824, 42949673));
    (125, 4, (1073741781, 34359737));
    (625, 32, (1073741582, 54975569));
    (3125, 128, (1073741333, 43980445));
    (15625, 512, (1073728302, 35183929));
    (78125, 4096, (1073704319, 56293029));
    (390625, 16384, (1073523736, 45026849));
    (1953125, 65536, (1073459059, 36019309));
    (9765625, 524288, (1071926523, 57548617));
    (48828125, 2097152, (1051673037, 45169013));
    (244140625, 8388608, (885476853, 30424753));
    (530184534, 29147203, (690518591, 37961661));
    (847655906, 37280301, (477805429, 21014105));
    (820667168, 28874659, (477805429, 16811284));
    (682972221, 38447918, (853027462, 48021177));
    (939430711, 42308198, (298284486, 13433539));
    (544286477, 19609987, (745711215, 26867078));
    (876967058, 50553709, (322499423, 18590826));
    (496475582, 22895895, (702990899, 32419733));
    (248237791, 9158358, (888644979, 32785213));
    (860747173, 50809545, (1020848970, 60260287));
    (860747173, 40647636, (845687626, 39936469));
    (890866267, 33655976, (203892133, 7702827)) ].

Definition s2finv_certs_b : list (Z * Z * (Z * Z)) :=
  [ (1069100000, 41358803, (186786533, 7225954));
    (988611533, 61192090, (320424033, 19833287));
    (988611533, 48953672, (153377158, 7594869));
    (455961477, 18062495, (839404372, 33252233));
    (455961477, 14449996, (1049255465, 33252233));
    (1060246451, 53760882, (450465984, 22841339));
    (835013459, 33872170, (563082480, 22841339));
    (835013459, 27097736, (703853100, 22841339));
    (329525092, 17109921, (879816375, 45682678));
    (411906365, 17109921, (715053829, 29702174));
    (748025864, 24857423, (563480097, 18724838));
    (750486563, 39902710, (1033456961, 54947997));
    (750486563, 31922168, (728956279, 31006371));
    (772016847, 26270372, (745103992, 25354575));
    (1065944265, 58035526, (93137999, 5070915));
    (983162835, 42822781, (93137999, 4056732));
    (874472202, 30470909, (465689995, 16226928));
    (225731524, 12584953, (974060831, 54305706));
    (282164405, 12584953, (804762188, 35893593));
    (927467073, 33093131, (483354952, 17246681));
    (1048305811, 59847682, (302096845, 17246681));
    (977298173, 44635090, (266593026, 12175817));
    (977298173, 35708072, (821890369, 30029853));
    (546927013, 31973389, (899594271, 52590340));
    (908557334, 42491457, (899594271, 42072272));
    (8963063, 335348, (1068473695, 39976347));
    (707009460, 42323783, (415242613, 24857713));
    (883761825, 42323783, (591994978, 28350927));
    (1071730492, 41060555, (2115321, 81043)) ].
