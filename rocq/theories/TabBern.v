(** * The tables of numerators and denominators of Bernoulli numbers

    Generated from libs/e_float/src/functions/tables/A000367.cpp and A002445.cpp *)

From Coq Require Import ZArith List.
From Verif Require Import ModelTables.
Import ListNotations.
Open Scope Z_scope.

(* tables/A000367.cpp 19-7040: the entries in the order of the array *)
Definition A000367 : list entry :=
[
IntE 1;
IntE 1;
IntE (-1);
IntE 1;
IntE (-1);
IntE 5;
IntE (-691);
IntE 7;
IntE (-3617);
IntE 43867;
IntE (-174611);
IntE 854513;
IntE (-236364091);
IntE 8553103;
IntE (-23749461029);
IntE 8615841276005;
IntE (-7709321041217);
IntE 2577687858367;
StrE true 20 [26315271553053477373];
IntE 2929993913841559;
StrE true 21 [2; 61082718496449122051];
StrE false 22 [15; 20097643918070802691];
StrE true 23 [278; 33269579301024235023];
StrE false 24 [5964; 51111593912163277961];
StrE true 28 [56094033; 68997817686249127547];
StrE false 27 [4950572; 5241079648212477525];
StrE true 30 [8011657181; 35489957347924991853];
StrE false 32 [291499636348; 84862421418123812691];
StrE true 34 [24793929293132; 26753685415739663229];
StrE false 35 [844836133488800; 41862046775994036021];
StrE true 43 [121; 52331404837555720403; 4994079820246041491];
StrE false 38 [123005854340868585; 41953039857403386151];
StrE true 42 [10; 67838301478665298863; 85444979142647942017];
StrE false 46 [147260; 221263356540516194; 28551932342241899101];
StrE true 44 [7877; 31308587187281419091; 49208474606244347001];
StrE false 49 [150538134; 73333670038030765673; 77857208511438160235];
StrE true 55 [582795496166994; 41104382772446410673; 65282488301844260429];
StrE false 50 [3415241728; 92211680143300737314; 72635186688307783087];
StrE true 53 [2465508882593; 53727076871960405851; 99904365267828865801];
StrE false 57 [41484636557540082; 82951790355495420734; 92199375372400483487];
StrE true 61 [4; 60378429947945764693; 55749690190468497942; 57872751288919656867];
StrE false 61 [1; 67701414918514583682; 31545097862699002077; 36027570253414881613];
StrE true 67 [2024576; 19593529036023113116; 1117310099899173911; 98090877281083932477];
StrE false 63 [660; 71461941767865357384; 78474262614962778306; 86653388931761996983];
StrE true 70 [1311426488; 67401750799551142401; 93118433457502755720; 28644296919890574047];
StrE false 73 [1179057279021; 8279988412335124921; 50837752549496696471; 16231545215727922535];
StrE true 73 [1295585948207; 53752798942782853857; 67496593414837194351; 43023316326829946247];
StrE false 73 [1220813806579; 74446960730167941320; 12039585084152026966; 21436215105284649447];
StrE true 81 [2; 11600449597266513097; 59772810982423367304; 39543890602341506387; 33420050668349987259];
StrE false 77 [67908260672905495; 62405111754640360560; 73421957285044875090; 73961249992947058239];
StrE true 83 [945; 98037819122125295227; 43306949372187270284; 15330669361333856962; 4311395415197247711];
StrE false 85 [32040; 19410860907078243020; 78211624177549181719; 71527174506790025010; 86861530836678158791];
StrE true 87 [3195336; 31363830011287103352; 79617427467118960607; 82727383271034701628; 49568365549721224053];
StrE false 89 [363739031; 72617414408151820151; 59342716923129864058; 16900389308163782818; 79873386202346572901];
StrE true 97 [34693422478478287; 89552088659323852541; 39976678576049114687; 58913715012663197; 24897592306597338057];
StrE false 94 [76459929404847; 42892248134246724347; 50052875241341230790; 66835938707597976062; 69585779977930217515];
StrE true 100 [26508796021550997133; 52597214685162014443; 15149919250989645178; 84276809667565148755; 15366781203552600109];
StrE false 98 [217378323193691633; 33310761086652991475; 72115667909083136080; 61101149336054842345; 93650904188618562649];
StrE true 102 [30; 95539165718429769125; 13458033841416869004; 12806432984424550404; 57210089575245719682; 71388199595754752259];
StrE false 102 [36; 69631199697131115349; 47151585585006684606; 36108069920430105944; 6764144850458064618; 89371776354517095799];
StrE true 113 [5150748653507; 91090618439968578499; 83274095170353262675; 21309286916719929747; 49229853588113293670; 77682677803282070131];
StrE false 107 [4963366; 60792625819125326374; 75990757438722790311; 6013977030931179315; 6832141004313290331; 13678098037968564431];
StrE true 110 [9587677533; 42471287507749031075; 42444620578830013297; 33681955351272935859; 33544359444136319436; 10268472689094609001];
StrE false 118 [555633028194927485; 6163244089189513805; 25567307126747246796; 78230433359428640050; 89812872414199345296; 38692081513802696639];
StrE true 117 [26775470774254808; 28869544055852823947; 79291459592551740629; 97868606335779273486; 35301453626630935198; 62048495908453718017];
StrE false 121 [1; 92821517513613091564; 52995222715964353076; 11010164728458783733; 2052854862240350407; 85951744116938938827; 39334735142562418015];
StrE true 126 [410951; 94584699337820902048; 65235719381232580778; 70477502433469747962; 65007075470486381264; 63928018636866941068; 5747335370312946831];
StrE false 123 [264; 59017187071772563363; 57372488790151512545; 25593168688411918554; 84066776559169054072; 79873163912524343486; 64694639349484190167];
StrE true 128 [84290226; 34336740513128757806; 3661936493366123975; 47435767189206912230; 44224262821278655823; 54558177497376915176; 85781164837036649737];
StrE false 133 [2694866548990; 88093604385168372411; 30408490784946642824; 83862150893060478501; 55954624342363337569; 33257577957094383259; 7154973590288136429];
StrE true 136 [3289490986435898; 80393069954885188400; 68805374769311309813; 7467085162504802973; 61809669385959812527; 47416041814678266511; 44393874696601946049];
StrE false 134 [14731853280888; 58956587008044245321; 42398042170239906426; 76194878997407546061; 58164310656996618921; 17482702094834945544; 2556608073385149191];
StrE true 145 [30502; 44698373607565035155; 83690172635740500710; 42565667618841918524; 34851033744761276392; 69566932962685596518; 35032957935174115260; 56244431024612640493];
StrE false 139 [4120570026280114871; 52611331590786402616; 55456088085411539738; 17680034790262683524; 28485581000862190523; 82902401434814030229; 87037271683989824863];
StrE true 145 [16917; 37145614018979865561; 9511216618960768285; 21473014008164806759; 16957871178648433284; 82149360636123597334; 65846673361817939379; 50344828557898347149];
StrE false 150 [4633655793; 89162741443284425811; 80626498223372542529; 57998522998073253793; 15501572305760030594; 76968829630837519391; 37877037076930102241; 1613904227979066275];
StrE true 148 [37370181; 41155108502105892888; 49128216583748953148; 89329517685071271824; 9731328472084456653; 63981253014021235537; 46189173095528249258; 58430886313795805601];
StrE false 152 [102597186820; 38021051027794238379; 18446102573865246056; 92339927764897508813; 37506863808448685054; 32262770824545588824; 90067155166901242288; 1409697850408284121];
StrE true 161 [8; 17180860832626285107; 56459753673452313595; 71039611646758215209; 5960925486991383469; 42995509488284650803; 97683633716467049473; 38665598297688483635; 6624334818961419869];
StrE false 156 [1716726769011532; 10072183083506103395; 13751392227402956415; 5001352653081481973; 58551999205867870374; 1328972826098426962; 35798807724085223969; 75250682773558018919];
StrE true 163 [424; 8607942033103760655; 63492361156949989398; 8708637321471062577; 84584419404778399818; 50928830420029285687; 6670180464545315976; 74029612293059427657; 84122421197736180867];
StrE false 166 [158445; 14951444164283909342; 43279426140836596476; 8078631696022238078; 42393809747998803643; 63647978168634590418; 21585441979371654938; 88659053485343756299; 28732008786233507729];
StrE true 167 [2053806; 46091432162655719795; 86692646837805331023; 14864506813337238393; 3449483166005912039; 26388540940814833173; 32279380432508494509; 48285248606260920135; 47281335356200073083];
StrE false 169 [573403296; 93708609216310953113; 92645731505222358555; 20849857308891130300; 17846521229647032057; 52709194193095246308; 61126412167883425070; 44680826483137881247; 54168671815815821441];
StrE true 176 [1384482851517639; 60812383465850635172; 28531109156984345249; 26045393431777275483; 67912589875165403249; 83611569758649525983; 34740858904573417658; 92701430585090263922; 46407576578281097477];
StrE false 174 [19533420762663; 75304149767792384622; 34481410337350988427; 21513999570734697912; 46869182676881715363; 52650572535330369818; 17697995193147742759; 48727830187498946991; 57917782460035894085];
StrE true 179 [1144370221133332844; 71871799429918466130; 8046506032421731755; 25814866528783226493; 10247813659626333017; 1773088470841621804; 32820100802012999695; 55494675732176595876; 9679405537739509973];
StrE false 181 [4; 16616155466204283188; 49595932507172973956; 14318182561412048180; 68407740780331759127; 8311946192938321074; 82426945655143357909; 80725185285927948317; 63734356976076398830; 85093246499347128331];
StrE true 187 [1369347; 91048670570764562136; 25128243322203607744; 76594348356938715366; 60804458861465755743; 61317065439484641599; 47970464346070253278; 29198969639009680079; 96146173176555101187; 10460076077638883999];
StrE false 187 [1124251; 81661794129002648485; 12062999827747204677; 12867275292043701618; 82982670839574545965; 41707183631821434183; 14514085426692857018; 42861493541273606394; 68530330943289680696; 56979232446257101741];
StrE true 199 [6173136454016248924; 64052227226347096019; 95593282906553375302; 2055853397791747341; 31234703014190650099; 37527006122336959545; 32816018207721731818; 22529007667021348110; 28346472546859119172; 65818955932383093313];
StrE false 190 [4277269279; 34919254113730440062; 86293483274681358284; 2291661683018622451; 65998959551071291581; 4362387211395469635; 58655260384328988773; 21968809144352962653; 13356879516125459460; 30357929306651006711];
StrE true 195 [857321333523056; 18013119443734793321; 64314033057307053590; 15465649285681432317; 51401068602907932447; 96596346423848090617; 11319481020030715989; 914059517055695619; 67623186255296457235; 16532076273012244047];
StrE false 197 [22258646098436968; 5063960222181638518; 15965679185153381699; 46670500599612225742; 48759501277583838733; 15504747512122606361; 63500086787417640903; 77080735322815747833; 95470414726798808902; 92167353534100797481];
StrE true 200 [14158277750623758793; 30938687040139733311; 28236327174780514265; 22029712001260747920; 78947371156216503110; 16656182256543292104; 73605281619696918061; 31624063485798401907; 15725919405868755589; 43580878119388321001];
StrE false 205 [54115; 55842544259796131885; 54619678727798783748; 66387561841491415887; 83989774511509608733; 42906751738375070629; 94868227021716725222; 3106730993581242777; 82586420348723842947; 99572802730939040253; 19950569633979493395];
StrE true 213 [3464657529975; 82699690191405750952; 36687192319234095559; 34864857153703921548; 94102000406980162521; 72849250191759801271; 14021635301665169911; 15122131398542029056; 28695985772737356840; 24170203197619126364; 11646719477318166587];
StrE false 208 [22691868; 25161532962833665086; 96835996738932142929; 75883372329867524097; 65414223476696863199; 75998161181766073575; 38313239004564952539; 61837175924312108872; 91508953497031060433; 16364841745263997213; 65966337809334021247];
StrE true 215 [627531351104611; 93672553106699893713; 60315305415331189530; 55906391070178246402; 41378480484625554578; 57614211583578896086; 55345322145609829255; 49798683762705231316; 61171666874934722145; 80056712170673579434; 16524984438771831113];
StrE false 221 [8; 85279148613480049684; 581010530565220544; 52640033954842943984; 39087211963495794940; 69282285662653465989; 92023725316255566652; 63858264498628630838; 34096823053048072002; 98618425469399133669; 95934689061111582964; 42729034119206322233];
StrE true 222 [49; 83840494283334147649; 28632140399662108495; 88745720667496805582; 26172636696215236875; 68865802302210999132; 60141269761327939105; 86545271453405158400; 99290478026350382802; 88437171235933798427; 41228611598002800191; 10197888555893671151];
StrE false 220 [22505253261872645459; 714460628885135841; 5044455124711622263; 14116815497805302335; 16069957534394574922; 57929060818042752031; 82356211236861094743; 43887857944611842438; 69839988529515393557; 49582750217151161200; 56995036417537079471];
StrE true 228 [11063664; 42508569035909764814; 22794879200517231299; 54099471537233452112; 86697162641963338110; 25709747746193210786; 82011436902584989734; 57225310980427605309; 22656878891556664782; 16846509556313209231; 13320730976306762514; 82491663634626858373];
StrE false 226 [252529; 26688914049202794270; 26668969389456388249; 38988933945560431669; 15733842846782936201; 66924361693666444; 72233874383919822134; 79316519168076511988; 935942493038194104; 75996720807371128467; 10452550475214292043; 96148980705984836743];
StrE true 233 [1240739066843; 30234127114734836969; 90726334795896412761; 47258785407214280040; 33735770870212985410; 61094633377354326966; 62327884942363192480; 80443978226511359056; 40812063181221280972; 33496519333843821410; 75784864170268061661; 84210160001817890901];
StrE false 241 [4; 70818136852949261411; 6441979518373172026; 10608341257204206693; 19524124520436082287; 59106130104335721332; 27831741097261618833; 20653751919888581225; 43472191504820055434; 22997225440204041473; 51818763644224133262; 18047189677752039384; 3965710395632762155];
StrE true 238 [185611066994738826; 83893610406897640274; 64160460436671923253; 13117685322408774192; 43784324034427103982; 47642246902212818749; 68597433664152924017; 83981242355554376252; 51481044526024910356; 13181901667004794966; 16365399646623703756; 22630863327168696307];
StrE false 238 [400574893007015286; 19358267664768561807; 6477227448622268042; 5274524579824253977; 5463397898995461603; 41590069109467023517; 8557861898605596918; 72027318782716854324; 60708841118506310943; 86559256879136029424; 44517657469118089944; 82063783730693703607];
StrE true 251 [11993122770; 10861785853644332296; 48780036181560695597; 94803117809279608039; 12081882908800010335; 50365928648779545635; 64831932363414886811; 78605460131851720693; 75496050592983078955; 91515771731031691422; 48937709868623626336; 79164045127510109168; 62894129855138281961];
StrE false 244 [5646; 41364402352353147265; 97295525749117636867; 80871700375627426663; 36650783712235399707; 58917367068113376982; 48660838754243486778; 19033152278590366155; 64586511750614698252; 4821206611273990250; 66364738126136065995; 5197357309252021176; 6150672170127523599];
StrE true 250 [8717064809; 96007465133204367979; 65444744200531896218; 3209941154764877242; 57557961754018516630; 60948525022237381261; 11951612525627910517; 50108157620226477017; 85466087109374740057; 42969950212404955732; 47319845162302410893; 43734886411617511589; 1712323446768306053];
StrE false 254 [13368053158552; 17266521085253935989; 33403698706519514979; 76111882891296650008; 395517216079245722; 93763209936868177554; 9436399268291095350; 29596865738108816821; 91334902779142690647; 23832062615431730061; 22464998056669325860; 30993409969885423019; 14519271322675688591];
StrE true 259 [3018240015081392087; 62097868831192538039; 99832296331202688726; 95911807562982111154; 5323582005016882992; 21894019647557759482; 60724401542319799566; 23774598624559810225; 51919229357426105082; 80966462644022540839; 61986109104909312935; 97990537815431954923; 73882916779852781709];
StrE false 259 [3168221108903401670; 43687855821573489332; 28495407812087387966; 72473984272484396317; 84959697863027203134; 20241946898714679161; 86898192771267438982; 22871052507988695629; 51061974314012173578; 93460897221381410667; 38563604926458338074; 96317766911215920164; 93432807733153743581];
StrE true 265 [19065; 2909997888166123201; 92317738583356772903; 91514131438762718705; 99057704445939156075; 71897262423576465710; 20749026107377290275; 17674632609562387841; 65870926601432900540; 75335219507444491098; 7215808770201247724; 93223149525298163290; 80423713079655619861; 33763291349835081839];
StrE false 266 [126207; 37044909818561832856; 9035555562401688731; 96052617629976895710; 62646649745107532482; 63221315294829949112; 29776907026423863777; 6799989565320538433; 7262325215946411591; 80572947113966254365; 6736041542403370025; 25847720510180806359; 40567599772724698836; 21048184279331863155];
StrE true 271 [22777829627; 49544647786193093844; 71000058456114552786; 10435948668520715964; 40076587235747852022; 64569552367656169485; 69194371563693751520; 41285055935622032497; 28589715135934504017; 19557868990117188918; 77065760345722163063; 92117772310263142876; 75009633156576557796; 98470644544064472947];
StrE false 273 [4808672247710; 1697116513683699011; 64949685515987815293; 18057420685176269502; 4279499281932407966; 99781588872703914400; 11771947837006189007; 40782637516562256421; 88368649528756484912; 33428432862118258001; 98337962453448529082; 764443929566600266; 99738931966138942165; 5936316966183107269];
StrE true 273 [3214671335909; 36589398380572003196; 19079800062834744366; 36740192043610340393; 15014370869884972981; 40446088827285577323; 30801864852303165442; 46541168364468343631; 96922548032479902806; 70156217699397184434; 19712110857965409179; 94745699497068700513; 40428359034941725694; 65751671057323145801];
StrE false 278 [219548280848198162; 30623427376391154946; 62851052441547847136; 58316494872694385654; 42138452375719697629; 39488616108619900907; 17450321483556990976; 73730377547354631757; 92468803267445420; 83860763606992730021; 29330161098228962653; 46611203230005653438; 6091362683474257075; 37340996253935261001];
StrE true 291 [21219100857; 91820604785638379454; 61872287372869333130; 17518832513566089775; 94827300354481463888; 58205966593247205572; 84235627958719084675; 89256590386433953443; 96334821348861518596; 11237360536546092182; 19154099494364563947; 57252173113308288776; 95184401243299271992; 55220019114195299282; 97005743854184672707];
StrE false 283 [453; 50497283152392050210; 18362829154800039522; 50254971484084194396; 6340849902702255350; 43892135549408608572; 87751396338453032575; 81042481331243929599; 97485849004663162061; 6590984659821598454; 76775069615932928809; 2830325868627515047; 16828673852724136077; 82186925352541445837; 71935549805772798793];
StrE true 286 [148067; 78686788103470621358; 14574727890490996459; 90315390961261179176; 81340159089002531976; 32543925157559965099; 558163988355812598; 51342429781468735586; 28010545299879178299; 85692910021717889152; 41595436738037854816; 7540954533057560554; 70428371832000604642; 48816819341292162498; 89269701182688055001];
StrE false 291 [26266860520; 61021184301959449530; 58387315319589613263; 7985318981167433864; 45899393566760473947; 37425651989092115424; 63521278534160195859; 18067825993454160649; 45113338168378810138; 4383289153635876975; 39161746950612089030; 56552776976154338169; 77982741450413480849; 50789251085690426167; 24875466536400029203];
StrE true 292 [350744554637; 52533183426677419496; 51253516986113349672; 18009546875814550592; 11331722442400234194; 66113277413785800736; 68245896621242937309; 58949347520414341197; 11352215164597094886; 53027842920663706630; 20315014124991662636; 42447542289785723225; 6443774065509757316; 9222910751755225514; 66276032634749948001];
StrE false 298 [305398541476219870; 31020209756675351818; 80294373982570358384; 26271221609901363012; 73812260646712489701; 68701164841859177635; 13956122037310231627; 37109807574092950392; 31697360536736113380; 47351599358018820496; 68083232017720816686; 95321316425977503713; 93389493439935134824; 9184119228630594232; 48058823372368106375];
StrE true 308 [89774288; 87163030784364452058; 5986526326135594094; 13344033893019938898; 86211387644018394330; 77242905091655398157; 64354254584162176909; 46397167518935169971; 71894549594159649952; 62823025743004001915; 97512824268021361258; 17483677430777744681; 4545056300803334120; 33953790570285687760; 62468558678917867637; 41486735368783092237];
StrE false 301 [2; 88475927665009418601; 32722242595844333678; 2183845217969121665; 25343199653643741385; 7164880269714807470; 22580182931940812035; 47275234385399948381; 64560129575511208121; 15224018480617695398; 68110287053579527883; 20473307096109529525; 66962354787854087985; 12762919109488007863; 54349333915686439302; 79007460403102076327];
StrE true 309 [104203435; 29764180091550759280; 31387698963331274914; 90532929531166632958; 45057275192902608053; 34565313825687466304; 28805839898606131705; 50372271256737917283; 58134975827067637902; 63297372586804372654; 9027141273365440974; 20294052591561306635; 60412599913831518338; 40038529076091377344; 83297735187280925950; 19422753511174189569];
StrE false 308 [56081693; 58688946227505158944; 74846176826564862624; 65693822181172785524; 21833895164190871798; 1847095478850602189; 8068568000776767834; 36007042930083387966; 27070692724581737458; 83316346369196270761; 64132517683873815360; 61759636653832166267; 24969370509650128327; 15786212127558766604; 2900474523038599428; 85949047756404247033];
StrE true 316 [5218507479961513; 80189059639242126136; 10369356243122583250; 65379143295948300812; 4070384876609583697; 45987347624723006386; 25802884257082786883; 95667982496401084156; 50511751677174517473; 28911935282639583972; 37247010558718773649; 50555012087015220999; 21363239317373617854; 21705043567071393635; 79785552467794609022; 10809009009539232173];
StrE false 316 [6225500408881102; 79751004332803496946; 63044259648514807965; 88968345345616249056; 3547908048969132352; 95977693771272379103; 26626106353639640430; 86266275827603715581; 83137973619260630567; 84629357346246050085; 67491048471233121195; 54834005073869444926; 14175497512823803191; 50802908818845820530; 56752443512794457561; 72428826335261196513];
StrE true 325 [25979; 408162896058710572; 65894981852446821926; 69312918354799594180; 94890120803707468900; 28132512470453552744; 29081010226159305052; 12028093980003061941; 16349399794836747330; 12699371525411902546; 78821414979800759785; 21524030877306056877; 5633337526147415796; 73909061322574414039; 42177277395190738112; 43890831236421878771; 6727324831409104559];
StrE false 320 [74333782054653889423; 74346921315265579914; 31731044216817199531; 40280099539295673341; 39763659272471378539; 73343729917073065389; 31885461890982390991; 36195564469037143451; 80086262670567138988; 56350449471518770634; 62456818869873419968; 78486341365778158840; 7651660546155376602; 65187819984733697566; 90757050292200249429; 88801596540479832623];
StrE true 327 [1812152; 87752963297591649028; 85826628159615932054; 33015040034255986376; 97061538040522696126; 1823798365932970051; 66967391488413519129; 57174525785315414144; 42913659155413121570; 5603259497332569546; 74813149699783016318; 41533809439574315293; 25427232568308830716; 38325957369194991055; 19777685060349752750; 36001095158805539508; 90416293966947553269];
StrE false 334 [30465209356969; 95573515824242272701; 11775477430579008410; 83447887046348103915; 37752246673386049133; 78382139548609623914; 84156417221996231779; 56366799133314531041; 40202134556279925445; 98868565713410364704; 47536143349353694309; 18736361622260584801; 24902928289638308680; 21774140963898080446; 96195892779475052668; 19774092105808063349; 2707423302910890705];
StrE true 334 [53894792870198; 28859012200442343326; 19235550901238216799; 74442219394992023405; 81932428533725140323; 93947904799994943668; 22480012449671547071; 4896269136682582392; 58211048497233940851; 8222300354124301728; 90925658230152084954; 90382614339058885431; 84581857295068894172; 44891371385482660658; 83489292508958450183; 32534765377444002838; 64408173645832802729];
StrE false 333 [8769216401026; 1760383168273082801; 32478803905556483690; 14092342980022539957; 82034121007322766508; 39136433131336422203; 56139182063976367905; 69250311165509441010; 94517069688378650039; 97593080751448821840; 8248023432975450281; 97833610660371670092; 94242107179248975708; 27498252893067062775; 49005856335680693068; 9352009453263516817; 14440032862515566687];
StrE true 346 [138818; 27727534802245242595; 43538426023294781120; 11984076676099395045; 62972565375367623583; 14128425435909635398; 7781188253919966271; 14711856553358072636; 75649242817349083277; 47551903578689510712; 67640494075493598567; 12249235123586468592; 54132811509976085117; 81357922622804381689; 65402774928136789551; 16696340112447278252; 22020582968808728541; 26156007513528607131];
StrE false 340 [32885742727913259837; 7258196648395370596; 30575834169974223889; 32254405505398799100; 98002426164478935667; 75966690766963898661; 67091377992003771605; 59516125812795457124; 99250778556026626546; 91723993291132474210; 69765604730822849303; 18446400772765940702; 14867981889272531391; 76046166778181472669; 99416190027867185569; 10240389167045599665; 46186751742476372279];
StrE true 352 [849022824259; 53111991199205658490; 9760217791023572798; 91826637435055024636; 62254351445408958629; 24269878096526376888; 98889647327919095543; 25665111734112057467; 12397692187887537779; 43771817305015895110; 59242543228757754984; 49791436769311967741; 32748963698569487428; 14605160820752892957; 24305512800386456299; 24190704927063667946; 98154891061027861588; 31873003971980149529];
StrE false 350 [2587559349; 93481288332208572565; 44133843109199942629; 17266157157583189600; 90027173793149931105; 38912888759932261638; 88339779053129958508; 44269731569137799157; 81848556311555818927; 75507142263787274123; 91466965017246647885; 65419251002500248036; 39631265629799342199; 68114070293868470634; 39782311617981818206; 54631104114299131232; 26197172618783159790; 33851316268092742291];
StrE true 351 [13295996358; 35266125584231829977; 2578242047892089625; 75424138758702193899; 50207665639899901859; 87109982064786136276; 40240679560898154064; 41330055688455987337; 1027267134930895872; 20775607893710741660; 51233230927499111807; 63524271940975157312; 56809193773918568106; 61789011058223857395; 66191012805835839265; 69442900013510405117; 31970392244610503649; 93416415448157657001];
StrE false 355 [126278634076474; 38365436503663741802; 73258073609841543441; 78778167568854188198; 42492683603250125101; 67918286412665710785; 33249500247025672453; 54512015185842613632; 84544626088778140281; 35357480684003645692; 74042440484975063393; 93258324386379574048; 56278182520979962826; 15274925915550492296; 91481538713081331723; 84546212074592864141; 6689230529920960715; 68118182416749081409];
StrE true 367 [4426158; 12201599765691808122; 86675898014998089409; 70897924307086870252; 64687594884165223892; 39336744890657868066; 72342321537012751674; 8482184645868542961; 81832145252892766580; 12594349154796284960; 12059642381183125904; 14109656617177099586; 59062147534583171671; 14165518201658019936; 44854496297324384695; 42501153689517957906; 76303616988030056352; 69206009139003478920; 60168169080524563821];
StrE false 363 [158; 37896045993374535373; 26739833777046220864; 18682000111407542005; 58098654414535271543; 56495286311976452117; 62019722767661122078; 95806421717733622588; 9887379557404610664; 76486097551548991955; 11631954631542744949; 38254307047873759856; 85635337262886136570; 50441282766359099019; 81634343422083675015; 61777230870660164068; 66865041617636865702; 92053105268177309480; 15526849382859712055];
StrE true 366 [769496; 27123221704856645440; 34511196537739063548; 92060893481293713784; 10795184701985731073; 97677704630765165605; 75249619621659718985; 64612696403965998182; 55776462253011890822; 87264198134787013538; 17417838395849447373; 42770125868093519307; 81277345290942985827; 69002601914474898611; 63191434489629976986; 65018791994064217597; 70471170974869567890; 86041802726866624494; 93086793580970828093];
StrE false 369 [344977368; 18563738030433389873; 6141539965254192819; 86770522385915720139; 21555484776094987083; 49822023034325876259; 97234795118134923343; 66326554820459479284; 18114393034510112514; 37993865656175552484; 85014501444420258761; 73787364721602885790; 64961864004275382498; 99416492367964415081; 84505583027508852340; 58860046684381556954; 87896215308878625149; 4041123063873751701; 14820733240249707147];
StrE true 373 [1888575590158; 49599644010843392678; 89588594504495058270; 69108529221911737605; 49109424212818030496; 63561651622901731030; 44092702582217959772; 17818360622141686714; 3551064767990946535; 51123469827906281690; 22804760467783880848; 57526581969649350313; 79587556530427680306; 53787972037747931081; 73185847447115224533; 87072627648438830200; 28572832093609819474; 54119991049918038386; 65658699650727659349];
StrE false 373 [5683175611528; 69660708006247807250; 18207032508025209636; 11339740016328084145; 8589817525161635934; 31685958581086241677; 62131679681416977895; 53602500376100759891; 31772797892710718806; 643885302907670572; 28836881638543921870; 77937255551262693770; 90645484013184046265; 38932971944952366322; 15290927648947038138; 15177897980268745011; 89337189906137894056; 8015071896647115671; 21796987700152153839];
StrE true 388 [18638789; 95204859011995045341; 84815606618219184663; 59059375187153206557; 75958174360523134990; 75692230341081048260; 5287694796420210012; 18415879006164302955; 37046082914643480796; 47177371953569351441; 51583424833154250047; 74743357558499902912; 67751862933887215149; 70183351129809976971; 60322763393043492384; 39848295803115933725; 65398574762880028289; 16763557001241560694; 13679957022122115195; 61707046505473575241];
StrE false 380 [29732914652005326308; 6903829904687722816; 59474892857753982327; 75554326821654997284; 25495454143675975561; 91869298188789624191; 79787160694148360451; 81799781132318932173; 5704368472385273922; 4080083670713746104; 12318092736345036555; 28337433968870029668; 84296848913481132785; 58668312073236985859; 71530762611279750764; 6564459518695821788; 63536171146323016595; 28571172263999099616; 73058570176834883271];
StrE true 385 [58967; 52302971586952817880; 13755354803752295210; 13857178622198695979; 59540714708235406233; 63212253667744642624; 62956921196844860368; 89235399687553979484; 88625442693358763708; 4510037897699613232; 98135257953657891721; 72685408549888640277; 90319217013641804271; 28346719739542203363; 10692060343618525697; 8825449477940420431; 94815113693600814746; 18970944782150707996; 9204121013171606898; 6936226622681106017];
StrE false 393 [6897357391928; 64790938869842200448; 52249162217406553018; 17552190675058172679; 65189978776569968680; 39998308960063096834; 11021783807777136305; 83306140103562669027; 42455238420311381251; 2433318056276998092; 67240054344772443480; 9575257206669816773; 77291903461482978315; 47431732607091731942; 17290565894464557623; 39503516758597563678; 33238423434368779109; 18134963509989238341; 89008627203972662776; 23080279813067604999];
StrE true 394 [13100283138785; 67907114692495908315; 70312119175591113111; 19843602680103392919; 58527789632281425987; 72042005130481054337; 36578815747973536959; 97625625576992435250; 95411564741907554494; 47360548540157110742; 48873686155373327776; 94634864456704912998; 41448071987802341072; 78733859628145334731; 95211579855176810181; 77534437360236590803; 48249001450368140437; 8358309912702987053; 76782454501487111916; 80759214684176445667];
StrE false 397 [32606062352768511; 95099437047707916012; 28005470937007771505; 23128960114763470664; 26313756906147929976; 32463961748707903818; 27183158505869129986; 81890040154101217023; 60174635854844213935; 68817612094918793444; 48144235471024519916; 73028031440640119705; 77528506941248017815; 98205133338269426259; 56461118235807447513; 92666467794603354697; 559434884540406485; 29963201334469035270; 8500489356136774933; 64152601347478976955];
StrE true 408 [21931022; 19234960851249218238; 8404575155215719519; 88074381726218735984; 66768087209339634961; 93287320441312135479; 98124308541078032992; 5525957462517069794; 52929554249409283208; 98831030553117958335; 52429533447312406108; 52110199480347842183; 28090588160639378688; 33476615787471103807; 13468900860626627458; 51773579782072910105; 21137953994775163763; 30508889102106163067; 72000397333935931430; 27498574533156207727; 6780505888813811597];
StrE false 400 [58319632116552274690; 96364047000879785191; 35693938516160268026; 99948792570800426514; 95531334620369899431; 33118975504983324268; 41700731679786431087; 6019166324688447112; 22777875778441595662; 46144578084842125681; 32108937476630344240; 53574110541569291103; 27670010300275581188; 55855057952089777910; 85358642307758278183; 10605541571755550952; 33630076901455631073; 91988802071146528369; 75369297328995687695; 25385745975473155407];
StrE true 407 [2330676; 20361809547072399023; 3733182709978468580; 32509314923904005163; 41497452585445965621; 34540960231525935441; 27001579959962113568; 24140153823118615345; 97843756730857227145; 20062224650906603279; 52880176349427267549; 9458234645264430702; 93052984245665308037; 85443652150664665969; 86953601385998432554; 53570919691722935047; 84492214064965064321; 67664369239478872974; 24791260110042630633; 93122755654755956696; 40092216631914518917];
StrE false 410 [2812296709; 1952879810550195237; 46421026174611154606; 60788141083455382157; 11956000771563881395; 4050817072318352135; 33601493713350448834; 45910336373788751754; 88860842142200215544; 95245746225155172830; 55458627031464716474; 83394138505742989863; 33623159576460033941; 88662183226812852669; 1817977284569573044; 60454187242251773619; 57030693830156382145; 71378546092320911382; 38514163416015686178; 30951146736552123997; 23765743717305197851];
StrE true 415 [372182298114796; 35434736287217181603; 89675395897437503779; 22680786048256669121; 47059590162399518901; 93486758232537597591; 64227965445992085771; 60186019983780157109; 67458002507660860624; 56892444832845256080; 83767962245418996857; 56821793434321138838; 51292530721642055470; 39831711715407953871; 799809353390519107; 64771797621303275275; 28151598157393221210; 41527686676774334782; 32815877331445220667; 86877707454869768445; 81551304048486668867];
StrE false 416 [1194701120251368; 37677231044892714710; 97868501873399758887; 51433693459282282997; 66467021619093096802; 37660201998669294617; 55200963846424443270; 94416513779796276967; 96385888263305915811; 92461679430309344955; 4166401076413042315; 71552322204363229110; 49729923603439658368; 19066579851981773029; 72578027688117382447; 66184808347628329689; 33566379909999766070; 59658190271101386708; 87647745596888027118; 13534490211201746722; 79118531405266405457];
SciE true 419 [38293938266948514423; 67963605345986414644; 12319414905512671323; 83695211998830325843; 77556163984602775965; 89929462002816094820; 95042290981956042436; 61949859717087550540; 74994120611502054649; 91758847003071995; 51574107407855402424; 20768677515572657924; 54970218345516996785; 53804651177095786249; 59367223624074442219; 55537113329542049423; 99883879329051596664; 64887105549892633441; 10331259953108731512; 84771962309916237507; 81378887963394244733] 426;
SciE false 419 [18083830725153928621; 30370135635372000131; 62679309314888077928; 76499288202937685085; 92707521055628027708; 27616582970567083806; 40310685745276129307; 99078981578676791129; 1521943879321373403; 68634261103606239007; 57855812426023541159; 77490536551875669202; 65082138036687898195; 70234151094586211640; 19663349961706394166; 14708604795600034748; 75427679061750173843; 50968552835315182614; 66844055352065049361; 36026796030365288231; 30179729566364761250] 420;
SciE true 419 [20389209557321667045; 63544675871539298534; 66454883234459494041; 92110310046862448879; 80129990722833481906; 99657499500627228377; 29895522517116453395; 29824674672295721387; 44498976519709435662; 56862772587598875290; 63884063441729464466; 69530481715487975393; 60133602448144701712; 55312860420052459456; 59596667739616513230; 19066288183077444549; 44935388834925108370; 67859273549449481241; 14388000131004422267; 4887804736057100084; 50675716123843756117] 426;
SciE false 419 [16450740261761201488; 28651408666634138584; 44125808139497240001; 55038308870188720719; 65811987645120793103; 27480308111899113384; 3495201879917853940; 777834452235434118; 67488322718098218284; 9298207968739139227; 1460959810670323747; 20432289322985638009; 84396865943755795758; 36908295488843730286; 65004080971091630185; 55655697695594114688; 19242114159931368918; 97784276903596652562; 83948257291245464556; 74155626455818333031; 26806752992741294727] 436;
SciE true 419 [31404740573139387013; 60732389906078846112; 97344032678777408390; 79468522117216337083; 62506172510706634702; 92244709701778302907; 97457104821060170534; 36314827665116057169; 90948810491808036604; 82733644591278636224; 53448448185081475442; 2737098212011999082; 9760469191567840252; 24770687607585609078; 12094567642327670866; 88491357087469900906; 69234292333606492817; 97245463707911099569; 74800789303951709599; 89224638658296129709; 53495017491550740260] 433;
SciE false 419 [10595945071213935856; 16143267506787482916; 27849550191512662380; 41329406810740724788; 65667135253508381987; 88534238121678429166; 41966404123623380360; 60518176277315759395; 53790154021616196778; 50118952876807840081; 11070093178501713840; 96998455082824610437; 91996919742138518947; 53587755965370260923; 74519645052975059595; 48788861861427554570; 35771919473837117618; 49232715855501325445; 5745204387511298084; 15288555940137642881; 25280661970576229406] 434;
SciE true 419 [11096835851855675091; 5690060591046124363; 22304793290197896476; 20819505111397118730; 42566718826132010635; 43710887491006989203; 21346886209572808642; 13276497579267063753; 73160032479060881414; 28531680505004999825; 966292986917147123; 37731033133063244894; 83365057422142133547; 74964943317900299971; 28928883270452912343; 59575683575992108249; 90277156331874835082; 27173954421007445739; 7645221523446395395; 20293776122750961356; 44427285378787750547] 449;
SciE false 419 [87166761387628994715; 22592139986413243594; 38367113245978510277; 256221092228820918; 1501517938525587360; 29189876363096736208; 31503560016764927346; 46781346462297081615; 79214485318416128870; 29142564098762415330; 40267367655224689635; 15580422620761261195; 31415625208230372679; 94522383193592201128; 79725078451979791840; 91231305934693255077; 14160187215419222071; 19333620480831014488; 36843985821242677046; 18093241870799973507; 1358985200574078188] 440;
SciE true 419 [13996919937429453218; 87296937025770000004; 65664934371179035889; 93203792722263061516; 18710085682587608580; 93560212970955512057; 98370028490413966298; 87964715888438379146; 64871339017278834524; 91575071706997348776; 1527229663631031805; 27139199261072959205; 96057060750434567267; 50334268109592887414; 90491658133099197637; 15174135465371944879; 52555051206433941672; 14213806837785207626; 7799122638334477442; 22838058546287748646; 45574223075309564130] 446;
SciE false 419 [99986686935055736372; 24584790043958308479; 53169240152118030482; 97298485625413934328; 55630597104261420013; 10818604300278555911; 10488355718632533315; 39171243300483682494; 58087059040520529706; 55664273280943633561; 28227690432977155781; 51918469336944179483; 86094650633400418600; 73244678648429785592; 50174108263899703085; 69227414235376180511; 35709523088384269450; 93917953996642662776; 56193069598848869500; 61662337011043868237; 91719249365863288963] 449;
SciE true 419 [19435667946412236600; 635575268031817737; 80189986865586930470; 46847185922842569405; 85047864332662480710; 70241357852997996746; 85846584030230598008; 32946165496464006255; 76028335211891585990; 30670653044302429200; 52125079232971762953; 19683924222692899007; 10918148435060503372; 4559775374127533914; 49552230076184112225; 46697775810780747446; 47866179074301908758; 82986119938092248435; 59412437328287256779; 85648233775482790802; 86015910416480439899] 454;
SciE false 419 [23574815095404701575; 613834267781473761; 11170021891688845146; 25588124591088321558; 70047629256149526631; 64217507306817544268; 99890383276767887403; 26748068662767626868; 59664936770230725545; 34770488586483642062; 25984301573746682041; 79638548021664582329; 68082382836216212063; 84489731250510555262; 63788305040144520884; 33926239997258280111; 62028979336063214121; 20878779459660750339; 38687737132829040482; 43846304491310382768; 3863555856827022912] 457;
SciE true 419 [19469582449264085198; 19928540035312319794; 2523115431228384694; 14455338338856848841; 85938663359749293528; 92263135137988528832; 5447465585588700846; 71027543542465268801; 24562963827309084649; 146964812930581729; 45225573249920181321; 73645306262902298168; 84332335773291274599; 28765113606300176648; 83210987513988845498; 73268866368809884658; 78410619882237596781; 15238048937072429525; 77921043325036965828; 25373077048086525583; 94119817374908458732] 465;
SciE false 419 [50217208910963797307; 99051573085173241660; 48351810351159422375; 33757433257351404674; 21398613651177907627; 95398322755462389540; 87649868632551993338; 60245429984564675043; 52201616875674226702; 6698878173677678098; 36752707115911785362; 97327588046501114273; 11592494224008919587; 72771702111459554795; 37604561876530663522; 6149149254817166412; 98612557284926135378; 59772665546205365872; 40384285146558861694; 19660183565651819221; 69705164734493393477] 464;
SciE true 419 [12359561245816347333; 61021115428386747648; 31835495331502431774; 13535105007409660645; 83901899479498558999; 33224956382090454659; 50652373385284290988; 63513249662746848230; 91833542355636103776; 51291484274983125139; 25898460638268951633; 66115470020631076054; 80007149663462290923; 33037069979951251301; 20515859762839469193; 96000128468579127746; 70692305399536165345; 32549898448827387071; 27566785716478776500; 72531390879445514950; 91418632200084873394] 473;
SciE false 419 [44586958800126786790; 45241483345173727648; 52692176040414939578; 32153847748776691019; 56344387587389168573; 1912257921598085081; 44405955278309411839; 33740175927839617460; 96241926858841239939; 68501104767184346477; 93906790384651243952; 29271596498987619658; 16525286791728854346; 48568672742027529256; 95113115455877050528; 88988969140031330003; 15120060143270989361; 38027297016850729686; 81090703554561525613; 78676179458706988100; 42470808115312986101] 469;
SciE true 419 [18249520604687390491; 18887301955783925427; 42158189419165572201; 48305863171323999328; 63107300071535471234; 94428248048774730112; 8435647924577393976; 12156419407039179052; 51697491289828281320; 77146902780721841387; 85016277586244219993; 44748799396051504258; 83830706636702361084; 5233556886984362819; 86262212424940765387; 67614229186803516353; 13026317983464924228; 87879603145311495645; 6544752097614513847; 89902062977670111509; 82625525621516299935] 475;
SciE false 419 [23698146493089350432; 28021398516266995926; 28411111024705468714; 56237323693618435911; 41164218465766364597; 12777920335379063477; 62183635901158641375; 25934178991976031056; 81460352445932378792; 45436647800609988327; 38629812794291498113; 12127273076915557845; 31721623262685912374; 78265380289893420091; 13243530964905487060; 43962852465907958751; 64954922228688533938; 2686849471730531810; 5751121488921877337; 97599213773504652872; 99000379375481876741] 478;
SciE true 419 [77892092556352008902; 32778877169198392985; 13486135455047496265; 11915147350546473495; 76909376350483945372; 94415972122421086877; 47853396741134899447; 41713882560741450352; 37797802154822761617; 52817270001573106865; 75470926798360955430; 42179681364991968425; 13823853071025258517; 53162180973909056980; 54739393609117605669; 74188186802980523798; 37722283224245024915; 83995084065878787104; 60954238204505018557; 70235750495486164447; 50140539582676309391] 494;
SciE false 419 [71534110225809894031; 99123439967078116850; 84551356244645540933; 30881041392816089172; 42982768516196495518; 29973697033587181069; 27138069240713231716; 17391092840119452276; 49892560360729074672; 77864072068087411221; 41099971973875253520; 62913504682830983772; 72539357046832649108; 31873003319706684490; 41594296073065276692; 88767872969111491607; 96425799002880268814; 32235979137544823640; 72986870509377464524; 14546228362231769041; 24630526882732099120] 482;
SciE true 419 [18399470428456050908; 1433311788649459573; 6510140556362887227; 17429950917809500136; 27255711740297705283; 90421056935974046932; 57617634201600598895; 35970821330273820686; 22428496069759470765; 39483777341046657860; 37620329699312153930; 8151616936600275278; 50273081527494673550; 44035763443059620864; 33603582043712329571; 51165657607509017253; 24315291611671971235; 8432861722744879905; 7840124030754833011; 93072180872965920718; 81654022732677719089] 490;
SciE false 419 [20813243679670197402; 65786459470036224833; 31056287355745054077; 48752194329210363364; 2990404549868392027; 47859043917118863682; 96491226342074760936; 89178952995282835371; 28619646155369384340; 38079631985205838319; 83015914878446689076; 55774787107504112390; 86707279314113340423; 50252815108953825677; 46572928950673725604; 33868261285932669643; 78446191288503498435; 27450121343248512668; 80718011466493208024; 57230883996601843148; 7010670380724658487] 493;
SciE true 419 [11072523087988132187; 95680548117975262671; 15166186538309029826; 13313730811527732420; 72705710402634419202; 62386242076342056949; 4786635353451426698; 244123704342201873; 59560062050493440457; 22103544008922604669; 60146902191227510691; 56630764313360960761; 58785671600069013109; 85711059080452399880; 81704908481660126863; 80976324375781606334; 94310213325366325872; 98653399772920535661; 7401323967095342608; 87428332526534997636; 54446938447050846790] 497;
SciE false 419 [10543646810192671218; 30159662373420279818; 22548065378183914917; 89205615558068132020; 30269003305294989784; 10421348989042633250; 98281199203997126891; 87184649711689415835; 28038472099497987423; 27968603384735237371; 36345243289020296312; 37087627685630315840; 42252256512239128052; 35434755784151235675; 58920642396486080328; 67773878074808109633; 55146229723274524146; 94848941788411853785; 23869768267544472464; 69153480716621041563; 10859630089274744685] 498;
SciE true 419 [56868988747972506254; 65959693568388346371; 65735244271465973763; 66171981802233487630; 53726160045251592818; 5027852148201245862; 32687460333822056190; 45167810748544640017; 78774464175567157110; 32055230455854240595; 86838865445108020267; 50477442449914161921; 15524025084813812227; 93016312328714558870; 57274294567790829683; 90877093897979160965; 32390599319570627898; 54858964405956367751; 23847679345910845046; 71416330132522452071; 7663259368956008194] 505;
SciE false 419 [27233521998844117466; 57116444168170377882; 22316888226564189208; 49017523981696494911; 61865108258270714308; 23770205468882164078; 84466480834780583096; 82308769614161992624; 66469270666791566377; 6667759198043548965; 51294803664572510983; 17170822303846655426; 60596536212413188407; 63778221635339312999; 54525682197137509183; 23446571634462816666; 44610612134324177262; 55707234519256021790; 37604045813434065564; 11819556342603922088; 9071001560270930905] 505;
SciE true 419 [21144886325968847421; 13686264093360579073; 8780651582311178948; 12330764874940817232; 70965528744920377697; 49109885765035616618; 249278991319113309; 58233528159264744249; 50305532082585483413; 39318764197461147432; 84899168633824271109; 86549311443047251485; 41437215370995347051; 71351777350290616917; 40899442592315104849; 35144428438091067266; 13124239420112267088; 82527720648564239583; 72374082615970685597; 38699173717984434949; 55057001422391239030] 508;
SciE false 419 [42021523248414908515; 82198491734154054898; 91098922983569241602; 77954814854674118125; 16892366095348619673; 33749055028042598969; 14090928561770278468; 93427878738640633197; 80937598384842703648; 74786788393623557596; 10808529212110936501; 47700809742931981752; 99279937762150116855; 33261432410077791728; 45839435134322891281; 28291173619976977934; 33448908490531697660; 72589382951964445413; 99673187582471353770; 25444352170089166553; 93980145141973517955] 519;
SciE true 419 [58501619704915051642; 96067554402854319162; 23316191798033687181; 6147066715050953611; 36712582010547178662; 26570169976401850360; 23065969969930196305; 77431663707143392590; 981058060988677132; 84437059053896204424; 70922975376729054109; 85648312911796535010; 45065173358307512202; 88479865840254271130; 69993778348629306554; 50340774498005037705; 79690611705088104129; 27919930789637438916; 38376363647544327495; 56537255589634548249; 98976936559504337388] 518;
SciE false 419 [78631979609289345055; 46950111939500837911; 80965137235896345688; 77004799927202495863; 94598628382360871446; 98807134862378170374; 14979036031006235383; 2503247626208396438; 79732438980608407229; 36009590301165543812; 26408931419751568883; 87279010186446870533; 89435289951515626740; 33920875868237506141; 65971959517592904586; 97298602770109818453; 66594728887374897270; 5807698646495449468; 17207071904078063454; 97295457720846392753; 568570302009860577] 520;
SciE true 419 [11075416275640217215; 30145501685669729848; 76925083693264831143; 12754443271781190499; 29840772402313518506; 20045442158975752476; 20943794500392129225; 72896559061121742082; 94630503691959241009; 34681462677996141725; 79484001463890111409; 29210993075671069409; 24561246537201480844; 38419189637324549796; 35619634196765514065; 56976540602199595124; 3640202700704114373; 77187081353045931837; 30285485045259289352; 34822987991366981335; 85855070465304605235] 530;
SciE false 419 [28791148831866096208; 26723532068276104139; 84544982589401994853; 6760866183498832332; 45139084663416929458; 76059703666741371797; 85300214721482640705; 97286070616857893183; 80725915877198087771; 18369733644702272899; 19568822358886590073; 23457891007577518406; 3671885773118326148; 87005612354400063672; 43962998446573535822; 65358655329107050942; 42132700635264096296; 20505237062683825267; 74187498015180776642; 89390262828965585623; 7089700264076891048] 525;
SciE true 419 [21299114788094757397; 15370672471453641329; 20777752220091972964; 87570276368549767668; 48373990565475962979; 42897220590885743914; 74394384116388842393; 47219877989084579283; 57833682090724030701; 66818305644992935634; 9594938900589201579; 75990605144754003513; 665686095027668428; 15852010549024561257; 82263083320640198748; 32238296603858849991; 74198988545409225388; 96608927544367596359; 4520725519771622791; 56780662563656853790; 89962109119824754092] 532;
SciE false 419 [10395544122043040609; 99050471842935871664; 23823612952503105062; 11979046731902520618; 16306076783004652192; 61613352777472349374; 93944615458161377516; 76691165637363944930; 48382631903692742255; 31413301044832962903; 42476507053344206817; 64871912900141730117; 97301829094946366067; 95995576156560517060; 23584759269518272911; 30232389752188439129; 96538779543747649999; 35825260459008934511; 89212571046394459132; 36211149024538216358; 61655611589968733716] 540;
SciE true 419 [46669563202575178169; 26480178489878702719; 38714890023252252791; 23397961887144097766; 63856362141719980502; 87597080694576271293; 71801444758876779925; 58175799481301586019; 20206002818530705631; 14326873197998541353; 40241062231395259919; 62930549063535423989; 902170725578907915; 28689479267987496699; 26359814617149589320; 30134855752275471759; 70131771602894568516; 49598661303715186366; 65773906707651659334; 22564746168996994413; 12548496925107118941] 540;
SciE false 419 [64080891235035617437; 80733337153307953099; 12947431801296035514; 49630595692419405047; 87249973082763025319; 33458844716623312895; 51634330620802493218; 37906553518441029677; 91249508631724180677; 30423611490432995331; 91037136087698033405; 18450516179464461284; 80600911050234222074; 35680346821332734436; 56465906102058462073; 73344198615263793221; 94552626904987830333; 66796807895595451968; 97417001858979026517; 38717325402192034964; 70134837096254721957] 539;
SciE true 419 [98872162196656114876; 53321936263289139177; 48393420050004369569; 38726481191695417122; 72599143599192048500; 37848865164209491514; 8274403750897124053; 8604847080970538771; 50205636763184912072; 23028465413318847625; 11927123535035221795; 53028584279607562867; 10348612322463571556; 66284199010031484427; 4056714596051123460; 68263402145070889841; 69700753045593228260; 6913140287024163107; 23147417755942945877; 13198659984061036919; 24416594616474259503] 556;
SciE false 419 [10161900313215566319; 95342159138863740232; 81804253492110488166; 98980319072816903521; 14534572622116308410; 56114503434432211375; 27690722856383209708; 14247145234287534653; 96668635584828350191; 56804751669116932322; 75508572146087793879; 1814143411744215836; 30169802248409852214; 72480193976670162670; 76622299047970087797; 6437578874336997303; 23821811657396877221; 69700364895613737474; 7630110362020821819; 68085420892960711201; 38556683484262445970] 547;
SciE true 419 [63783639210289998710; 8897362458823394656; 60750081315394597463; 77225328551512763402; 33027890560615096594; 28612186547534409798; 55135225080751599455; 76230337432280137678; 44748759035357201470; 84146967619965166480; 43616632491513865231; 31611584591474384405; 79563255414402868679; 46864344372545231658; 97512578873435193473; 76962412796543353378; 51032922764032596035; 48004343727774698904; 48460017461964152127; 41100764966319887369; 11883028507765498511] 559;
SciE false 419 [11742398355399945521; 90497513182360535032; 38758360505726000772; 20048830591025579581; 44704940674287492304; 22624721284905998983; 39102504451259220321; 27665436388239538661; 69848798193251300057; 95777669993259296062; 23291472664224576178; 29171374287272312763; 28539941695435844032; 70186239889883934311; 76607780378714053603; 13096057726209947201; 58177432481254737877; 50109518440297265691; 77451752266619131308; 78960138618730840741; 95816378819585090156] 555;
SciE true 419 [34590389184269498073; 20150484933956945853; 24315959535041305307; 56011224705219169556; 64973829953506019998; 42238087216796856606; 72668574010266703101; 84013796611289015884; 41213462389670552655; 86337720563656945076; 97389600886696154015; 16086233714003219411; 11179385796811579140; 85424486545326355341; 1776458785227188431; 80101522104988830898; 16668030790992239717; 49945727516451381541; 46920723566539084456; 53642502944394623033; 13140081224224630514] 558;
SciE false 419 [17000385744111362105; 59247112182015814790; 60969973774823543550; 65522101529898502971; 39035816916258067781; 75064153013683952617; 56892368319590482549; 16715625977783948489; 40698100060988046881; 67467919404828442404; 60969302406218096675; 52628402886187489064; 67099574280321662490; 59917375958318607417; 67548013712391467620; 52030990024131925328; 79436751290830927472; 41525094828376937402; 59020534666229839086; 25626434360197351484; 52642958172300132516] 563;
SciE true 419 [31826882167847269036; 79526413599703526132; 61067423935316312625; 13546951621739538129; 48391287146297908646; 46122696311597875108; 31358937051013784806; 85555164737152356823; 32307763080949262669; 13151377871925647720; 33439012334231381013; 83364932937892769246; 39127443823386014514; 50268288271670933388; 65880475567374296304; 27737978891250291212; 16485744106606795297; 19349753329363675265; 83068834875982474415; 30912222137154375094; 2585792674523604891] 574;
SciE false 419 [47002375233508680615; 49257502287451825058; 2165953221881187293; 88581779057270357890; 90975766092596120486; 50107641573576773396; 40679419801075529375; 84140583420007585971; 1515394269857927227; 65113963198773076233; 3871030533237616083; 32245274551978437543; 78242330663125902354; 23331835306279920316; 36037343661358260558; 33545210943663972100; 42201287111972628097; 21530825527742820153; 16310107675884741591; 23898732952243207012; 49956855854697941669] 571;
SciE true 419 [11040743826790404493; 22457640474906559564; 67403301201804055276; 16939751966233987012; 63395843134574919063; 11197933497900168985; 67458017914318448351; 92880349897217288293; 51302082076181653629; 23407728954132436164; 57931467439624320619; 54532467939669342647; 94726704150054916937; 29301629890910865952; 92864023659159340080; 52581798614292831087; 82677380853799729252; 55016997550744184165; 68787798719220098075; 75659278905966164200; 3756118628433587459] 573;
SciE false 419 [83096605681686416521; 95632216912551725048; 16245427194942775778; 46029723957400825467; 37232762807827989938; 78568376502765275874; 4946863334747054547; 81541688158272725954; 16765071482194437630; 41654514245588353202; 57093796237739184221; 91234979559992742090; 52760263965947326075; 13986405801015483810; 14113971979542275363; 7481134952702658026; 47391705032672125439; 77947471780118824749; 68791739581288424615; 51576461668360765043; 56150965742303158590] 581;
SciE true 419 [18840632174653835864; 96823258354155608442; 46076544492383633508; 16356454780409921315; 48966915304264042357; 19045836154467076874; 27327682018540206290; 24374179304615314093; 17886771692493646762; 59458302231885326120; 89514952201043172510; 70715910634256272720; 25446059167464033814; 66199665534290240467; 80204638986663636233; 66708637084399729725; 59227178500933186269; 63167296125792455986; 15561813162507665448; 38706640134332999981; 82435119621095832650] 583;
SciE false 419 [17794882907124438374; 84612243000477379544; 39245366393998814954; 15766683729003644254; 82375453545596542481; 40762601235025124016; 95668857105433170992; 75115688332095543283; 942088687575803158; 77035277890294680041; 61940923641293689608; 9507136675944946524; 35552927139151309583; 18338340952141414132; 1872443533465259338; 55907106027653408166; 21091854909265351151; 65429017697889522123; 42635940974127170135; 98962357324908272881; 53220352311977810488] 587;
SciE true 419 [61269144493917664631; 23273102284652981370; 50924839197112681610; 92758214660969768016; 69348238710361647712; 57817975797941476199; 24400672329173351640; 55107920780363262942; 78263348200699997135; 5912136711091223317; 51122081373688391335; 19462520009910064384; 32445142463832317438; 73282258287892336340; 42694073678158723064; 49957040543350039984; 25945469627545685623; 20055097032453408040; 40654845352999533863; 37281009271537528001; 33917964469919540488] 603;
SciE false 419 [37041764164977320381; 11057924215303173499; 89434553176611030631; 32278003774092192090; 34968064966863191038; 7921979015270437429; 24193668791839408776; 48630380195785276388; 51481686403847480960; 46464154584093600428; 92423063942373650862; 84210791291343989458; 76779354122085558766; 951969481919057343; 57956461535121861354; 23339301948709859360; 60688303147379538634; 66706245485662337370; 45103777482020864375; 26126983302923746001; 96793018724057118532] 590;
SciE true 419 [90030970488905754941; 27030554879593002506; 91255243632314995356; 84346940919758659818; 18363157756656952038; 10817228257767800995; 20883222340604428794; 41343811175286426795; 52487333128252142131; 37535912179341550821; 14965378341674527842; 84536412724329064314; 22340515931028866469; 88293391280750191093; 8684058290006604682; 84868526991350963159; 26359910612919108485; 88896849609801431590; 82309872237663332678; 33626408902948171174; 28008250878447534568] 596;
SciE false 419 [54022537803660305299; 3461995108070181588; 32443697480204250735; 64798052876966542443; 43139908727585790104; 52107244811015945468; 60129641620399468102; 80779353337109046315; 50194393763004260011; 11110082554857406340; 37884833969601282468; 2587868245758939531; 86081095194738031315; 2798790159969906307; 64008503734609295336; 44671669856383541718; 68295990830928404898; 72534295498661581692; 60473899283324734840; 55547184445147158190; 66290814050483578754] 598;
SciE true 419 [17863183260190853617; 10045580327610962966; 3555642069337022466; 65794822461822000046; 28608193074472550384; 25012723042570990636; 15939316292048926549; 69458818434152231970; 89039558399046230412; 72213447056418545452; 65466921689288566440; 9854678892565378884; 11656349639391150600; 27918037569253720349; 84042436244890477408; 43454616456444012315; 95751183827317621205; 41349243900708792397; 43698307160207828581; 36594250666591563656; 90242457074462226267] 602;
SciE false 419 [79145242800039505299; 4636743674087746412; 99277169449382275797; 41838496366674364770; 61999681417265776998; 71535620647877271680; 37101136364172587501; 64418040031627062168; 14077280766553803448; 78871273777920112286; 84257852564505311213; 3233116813021906603; 9887108163239626158; 79055772089552175666; 58493203885877312418; 39806084609112097516; 57670093448946796831; 48265158035296420969; 64263218833244496832; 40251698119750048537; 21487927435823390090] 608;
SciE true 419 [14750577990707069090; 89264064362789039679; 5880575979328703613; 12797605339877218555; 31829048369792753364; 76471526202077867053; 12787195868985834595; 93792675810769220829; 84033386036959892312; 15167692521223914659; 44346168865118004347; 31226005278346189290; 52569980773595567060; 95483028707777981937; 4759001480201366969; 22033144977602316267; 16237756589664196158; 22267535710003792590; 49438007003714263998; 78695434900165604328; 87577451792307471082] 622;
SciE false 419 [37477794872301324919; 784839670360702621; 96995319721004950125; 13584191181419861901; 15493564102700854690; 95562024553680419264; 42105482839592034823; 29576239229460642292; 11025115849670614254; 9656424617055445326; 23844725391336993674; 36058609043489926484; 94043300153592435097; 66947985382840962057; 75504449181934303253; 79506121943243526000; 97426145059000885091; 70788373024679338732; 45496565785065204106; 783165826659781478; 57775596653790453929] 612;
SciE true 419 [90024360230387232926; 51377696732332679469; 75216990147426234959; 78698606015115117275; 16393803644992519491; 68487224779118186396; 49193586017040660336; 42419071781422277919; 55763742401028085951; 15759449145109628358; 59921151130684604602; 71116279766996042964; 66038648254628913968; 47578375363113576560; 96827258440550754675; 12860033319632741902; 40110951409706914769; 96702539457631890804; 74357381924555174022; 63703943233793200756; 79673600131892254846] 616;
SciE false 419 [26825536124633712636; 77782288152595450458; 68431029437849645589; 17892563879584349741; 42729451607495147140; 84165426561127725005; 49303981007948045251; 72902074981852007175; 9668055892683546318; 81566534153569703280; 81067976317818670797; 78636900617376382054; 64081759839403867615; 35170339585979099748; 30544311249490853122; 27009804578356302689; 95660578620769654785; 8567587449877041567; 72907613971863685498; 10666645078970531603; 17558190734639340443] 623;
SciE true 419 [19715495615154980459; 45281707781358725202; 5241882046921028710; 3751244086350528899; 58528421462206148998; 4036360431491669210; 83159707663176823601; 94568697651597939992; 94260860786324043644; 6705872638988259004; 55009148047595679837; 46179984946534368713; 85910480449607892403; 68282898014290879082; 62185896123790192838; 23666710200371893951; 93173411370422088058; 94012372011387582879; 74113485818995566859; 38975754080936775135; 63914074730352088628] 630;
SciE false 419 [93421784439463986212; 18761611821257826296; 62966798874841047916; 68531052167155396232; 61039918096471982751; 17953002131456853984; 5836047275350386767; 52004974473648614736; 54065939291320525986; 94457016618077872231; 54220807247024213233; 86482784126733369118; 72181520398488126697; 14975734486140861915; 54625693617723971683; 85014178906456540237; 26077973486312470175; 94179350444633051496; 34047250637472301993; 65649612825581402337; 26105870589191017888] 629;
SciE true 419 [15884513568258363731; 504143782145957991; 74539534413035558457; 92718026065530734393; 89459507761417572615; 24377755785578389794; 39071340042420495522; 40642874217142103087; 5949074744929596932; 63224135868826281372; 61749587483200257971; 88191224303535908875; 12946558623409262917; 58005922492111063209; 35394054787272761311; 67150219922452044309; 88791515738888017716; 23192883526328927129; 80762279252833579270; 3187056895409332905; 98347707055522491251] 638;
SciE false 419 [52820988550912804071; 45188449187370707761; 13976790847044417861; 48606552305037050330; 90247683133076361827; 46179481352859499577; 28028695870688501651; 85536529321426166576; 30240045555650852028; 97776922988749231163; 86290181815310826479; 7342532515592291931; 50038194654616836673; 70129539963984271161; 8826232383858541574; 77150420529686140635; 72211852758706347828; 64675061934982893485; 90140209058848431175; 25746505109060656408; 11404322762111072203] 634;
SciE true 419 [33509969560310951077; 67330038518293917312; 2182334648782942521; 93880216174489593173; 50582383824661705614; 55858825557068604518; 87313675357842060706; 21778205976288528736; 50306589786151682755; 99290138352468354789; 75725900808964854113; 75473481104390898156; 72768327313180473534; 79688881585185631339; 46444270622614225242; 65399511451721069073; 40929315838278176817; 22563540477728890442; 25230507510811482737; 63467321038114210640; 9749431606057395718] 646;
SciE false 419 [93910555727653753370; 84396117314557817718; 18016618150916127156; 10591294435893974850; 81513018424705071474; 20617416663908235618; 14548294440724918778; 70552062694059378849; 77095844232222346382; 92709899017504681446; 9171516219648902784; 63871213037256971399; 87588942264031544373; 64546237046936234486; 87831344474050891290; 57599964910854063135; 29674400225188471243; 94585064156865971067; 4022709694308050018; 94842922440442618558; 1654249436066126887] 648;
SciE true 419 [80367886003297896375; 54905408606434751151; 76334382763699923937; 35954581890880122260; 87443084910869936431; 80310624435731275509; 9621163684824752766; 94252905815888538084; 6322385997152607659; 92393585071636995085; 42178943276854150562; 29068285642350890079; 87771127871856234458; 70747150615150782172; 42260421384373068872; 14331971939276543072; 61557625517124764287; 22884142117151263453; 45853916204013357997; 65458353101463743603; 98306278613114501766] 648;
SciE false 419 [36887651095190359395; 97863170745089770155; 21801043266751209196; 9694820560648030474; 97917113353953786221; 6620447360266215416; 79008373532300695155; 31315056136247955190; 44102404320708564462; 63923979299500092444; 51602896880353810487; 86725398149812361988; 54450478175391010338; 35379175138326867; 30720009389442465152; 77386132140583257856; 13269655856284716181; 49969760751747696947; 48695438632575090586; 82499128424954265140; 41322052136702614252] 649;
SciE true 419 [92312514972053377868; 5280106627035365614; 23742473016010860492; 46517369761800757988; 96215248792654225922; 3169098998993681442; 86166397990045855922; 48516552105228745115; 60077209046961864994; 91108648744373648708; 18222898493364585027; 92837455665276874998; 13609290582982432057; 94495656723748164403; 78174873057908633563; 87524174312775934732; 11309077070359896017; 27478906655055246954; 76989798280772563893; 89589765286385150263; 94632213743570348932] 660;
SciE false 419 [10278256353812610250; 84137509518564962560; 72845013222353952152; 69488173536361817026; 56928583828828717439; 94158244987762266970; 74299069342885522782; 91471518913824570952; 55323436878972460344; 28385673181414416156; 55257676812187239952; 55421790894843807617; 83779102255604891167; 48839886969453337695; 30978168445592814155; 26115810802169419301; 92968523416897195063; 76253855740928753998; 6612568940093924080; 89358915496977576627; 22514885923646850537] 657;
SciE true 419 [65507601541135099553; 22519520324689762818; 34530933031937204434; 39469112063977453165; 483812442237014438; 94133529394475008790; 74058495134264366249; 10542114024406950056; 91944743452409672335; 24480174462973588737; 10248617421245570015; 22512126213561202797; 22841979221537183317; 76532945085169610851; 8843787713487800891; 93419806315312144319; 91715959299563428081; 32776228442199433376; 82519217571886569277; 4213872171465925501; 86160388511019906250] 666;
SciE false 419 [63688865888558905290; 15573157270243329857; 47392751005503244802; 97997667539732777334; 90743802481131249684; 57448051653670739606; 43414011348316887165; 27812955468642497995; 61246957096519581716; 4874219856807887934; 11096140356661976146; 74515022810207552910; 23403737234829969832; 65766606390143860966; 67011376490283647522; 70423421408537039026; 90953653738071098617; 98705233949400843729; 42587439537091354986; 2090607507693690330; 81150234380435180592] 672;
SciE true 419 [18857298830179974924; 11277056154161628122; 12213841895020766690; 76264976047092808327; 4445528505726439561; 14497215752611047787; 30410937517584780569; 51517845321848516203; 20647579855705925496; 70176144846580835479; 58139737796808088881; 67818764964700925538; 84213405439099295600; 16692255209427786293; 66261309269472085949; 86670564424305882222; 90699114010502748358; 403163105897188918; 69241651684068673823; 44461715876142051641; 99212128303162013810] 674;
SciE false 419 [41366486798722295624; 42093558045531320107; 37311619873937552617; 77301351407636702325; 63121761608350626618; 92330568050774492900; 83376427223288227312; 89495373364901687447; 52502048943049241434; 52502542064394455949; 18268844871740912668; 35019079457750298308; 26973164388284257962; 46832366892982886259; 57015934020852065186; 33312053781929954151; 9927112327495903703; 42660947186143661434; 74374064568380118366; 38409943581985513360; 11498396150912151424] 674;
SciE true 419 [10311078417158292583; 43463911912030698033; 1152693724835574305; 66896746976027235401; 12990172956648590063; 3114326060072400434; 70650279475071004884; 50593390705595096537; 38427255013456258080; 90366893466647209730; 19306107636742232165; 50322369388413998637; 42043699815440776568; 11163988149479258369; 89520074635968480325; 41544011246226784913; 22587940166253688363; 45176127921014581293; 55569590056170963578; 84154904315169217040; 55798925175209801626] 687;
SciE false 419 [30118851267057440997; 35220397317997743322; 84237966284386701245; 74856540616442868103; 61289260630560958555; 32173991462477799681; 42926089803761775862; 29859417109762355779; 43559100259786932475; 83038397053699531684; 54122582952467429794; 26181833225367398491; 81029521007823361182; 55472443856297257089; 1995508766557190851; 61270543174645665051; 8956263349768101415; 60416672624945285953; 74215749717417206823; 97242087543772188145; 5115022247180573164] 680;
SciE true 419 [77093700457084754271; 9166505659317896124; 50235859854061364164; 69901220305663891805; 51352598954161072734; 26948797500232897203; 85307179039388511646; 51713938759766736933; 85000879337198213556; 44779439843478235265; 47385631220226246429; 67864571454383814267; 64887604844959060348; 1156936891625807559; 92686116534563663816; 20350652096950095474; 13536830816918711708; 41572853932684457019; 19072745257938826951; 87610700660122256379; 6766598808889134767] 683;
SciE false 419 [61295229216989039242; 25094098894493975355; 34249520258396707026; 86499604915274254255; 46286128994652359747; 79561457672930090119; 32884683640983519214; 25898605865990737737; 76319685962393963038; 20318849080276281378; 77044490771874628629; 78005733804889649294; 75779680075198150031; 68246395643465584343; 4319323788088163599; 84193685852738235747; 20837496255282601496; 99708880312630557525; 48142072394811248193; 10777601851780008004; 53453098222545233028] 687;
SciE true 419 [17379423342300736405; 71784417764782204773; 29295247992746246194; 2803309895539459843; 48636886152199162143; 24301023001093357893; 74633008390374420499; 11666508120618414237; 46487587175286790822; 79957824121275749931; 21003236478998018568; 16587814694250535160; 60865121420317871519; 43308296021963192998; 30498255481024809653; 51668164793837106964; 20569894532384921948; 99464534194575984259; 21177877747472682590; 72763426796079435950; 29925764974686120494] 695;
SciE false 419 [13873674832923745170; 63654749340797477881; 20317871624843969222; 3584245099363875266; 41039257924997765490; 15462261382557256828; 90165166445534326211; 96778877096505060633; 56203296293922665090; 6667636060346080828; 40398090087072847284; 47012008490510310327; 21110383896992993960; 60072044726417701137; 94896969220126392340; 54945046493515830646; 91607552877899587526; 38917244223242248711; 4321292779816866047; 86959419881707550183; 13199077763545432669] 697;
SciE true 419 [26012984231082938122; 32120571110613702573; 68363088110994209783; 21017146930273005671; 21821380151299515023; 30490102233258083872; 7760652312185884489; 4020475438113042522; 32061049089493484836; 94397053700779323806; 59816639748362496702; 63851555843148130892; 75200872985931085543; 92882216466436815611; 12498182857066985828; 16847860316768251385; 56835591137678941990; 68203603229202702727; 27732554866797105317; 52375956849573602129; 93877625995723525672] 712;
SciE false 419 [99061611800440520954; 73367568037412966432; 21987382321931721822; 82090029909721022231; 73360018311029392364; 90395767769383589450; 74353831757390648015; 78319103883990260095; 49363482047723522295; 68238522525508460851; 37201064066334649662; 75709378145660935302; 98055749907787466488; 75041481145224602577; 88204486783699727500; 50813868964108003891; 63132917305187510632; 92404119140988768624; 15188796755770925532; 74225811044292834825; 10069570158085040668] 701;
SciE true 419 [67458392197424380672; 75836266057268933050; 1263343470277847644; 14135371128371914474; 83962146434648155277; 20051176636837830641; 20271503191255854575; 12722659634591588326; 78711777574436725109; 88304868805437789240; 80302476865563989522; 52471378342025741011; 43857509948489634133; 67710539461685961176; 3779433009583486087; 77826109273310209536; 25752949148152577232; 99413552987428930625; 44134997648318206356; 57933844082664653804; 74529520534826114954] 707;
SciE false 419 [36976399757730489852; 77920560920787846330; 64579850215089906718; 92795397540853281940; 72045585775949841460; 89620623998022051043; 81380251284056938785; 65745280389516790280; 36813020229062675066; 91698917825479916195; 55912990564861709727; 88431152654760791766; 79119059946606128014; 26727405857016369478; 97534361260451582259; 75869186800487586427; 77909836543750730561; 63053627813804545640; 61816924172919267953; 9640422806525743383; 25670662894789508967] 716;
SciE true 419 [10541816873814096381; 31616910853911354455; 98065791378169261647; 8551453053764421674; 47677966359041858772; 15488052889146175975; 94086705240368673303; 93458847554077805022; 11337155151276130135; 36686418819433156406; 73862411986402084705; 90827183303724844114; 85597582033736496792; 90148162009307104085; 71386143740702777024; 90846650695664248028; 18695978402723455508; 33652557200792479799; 50886689963934128030; 6736971627889522618; 4853628790825262220] 714;
SciE false 419 [49070806034571816848; 29495510650082969763; 52341812156850912460; 75479377322859874302; 11637896978953398485; 8047563198613297970; 89577127242308445158; 67624115424336898848; 82582217920150615320; 26129641265765542029; 49508824725190771074; 36411891314989684272; 82740514345366467629; 99012824277462140027; 76016429289992734596; 94164702679454286261; 1806828138697534384; 62413802302318288921; 93554265441227110107; 55023093069964599725; 17715826132089736598] 722;
SciE true 419 [29571068203636866046; 28898285946122329559; 24955002201524705248; 52020659222298589820; 84685644090246435526; 63319217301279279456; 59951516772762515060; 64500189183973658668; 26625510003837807762; 23472190722926893972; 82607532095789514858; 32358379661753320905; 9693705495409824532; 82828388206120029279; 99827875337943367582; 50202054566895650111; 34110012795554020790; 55392887648432396357; 27038706673051411859; 35465614396039197787; 42559512015901475146] 725;
SciE false 419 [48304952056070024985; 81775678823997890868; 24383553406567918229; 50062590796355241246; 68944896361172893850; 56013694632157195762; 89607035969877364225; 47440215010726702103; 34726176330024986667; 39540719726067208908; 40086862947165242945; 80787684846264392838; 84479517280978247192; 85939940087829691480; 55489295860549520545; 50941690046726387385; 34325247450789620553; 65592853439992861256; 73465838911018803676; 96863423405899614307; 64533190073583476951] 724;
SciE true 419 [25535109222241698972; 69417319397351877471; 62421782658772342790; 78154218306288190453; 57439134534960702034; 77011043893060827276; 40662249328994752154; 37297342236199909271; 59227596335212703785; 41507790769763357456; 27637872659562645972; 46236796039155776439; 47700472106673593583; 11843696006289416640; 23128671903765929314; 80464022802240967436; 28693000309850908613; 17815538083359335752; 72888361402715107788; 11315428799638586148; 62072575318992227608] 730;
SciE false 419 [10986512284815158461; 16735605942901657544; 41894276368560548381; 91284549763854648994; 34737242367240952385; 6744474900836564256; 80636705797284096734; 61751272924549125285; 60279504541320374184; 42304263586167598539; 83294227411821897092; 34833344612099575633; 96163734906204465362; 98890167517709746328; 74287029915736629535; 63900325769847864365; 53789735950197578753; 61471141167104505491; 43054252935395197859; 75913292188458435472; 84003410332653298427] 738;
SciE true 419 [16596380640568557229; 85212308807713420665; 86643028066718923526; 50993155331641220960; 8401495608813577092; 14650253239428092078; 51857992860213463783; 25274540909642093250; 99531654667356754859; 79034817619983727209; 84429108190814559782; 96749801598899762442; 40633746601120703300; 69832902971048260006; 97178669172291137497; 97632930033559794717; 83840741577279650441; 94649323374986427142; 26081743688706971990; 1073426207688123832; 28675592757482195884] 742;
SciE false 419 [38142160866467232884; 55430922403465163409; 31381205624082299372; 84335262462582150075; 79621985955205217203; 16210403043956391164; 90006921543478655667; 15494073955637750362; 41203542775443967628; 10887962942382325268; 40691754063910108066; 97247644958141872978; 6062515207318249672; 29529176632972392182; 63778565156146246159; 56440515767735038166; 21385935925826059678; 71816384718602359000; 18041798849234264568; 41253729003923861616; 66896495551782426435] 742;
SciE true 419 [18006771329450391668; 30463177507754585266; 37950382699115109296; 60340315764491338785; 87142596465305242073; 16014415255996189807; 70780975011651639266; 88621532562053786332; 31305158176416935755; 35226528741877926923; 96402130149762806987; 99327713908439103203; 463780449982496620; 99092714127575238051; 58702871417470175538; 40046166316023751275; 54782384747315933204; 58934902914714951693; 25151076359480950981; 64610210913536208041; 54445042010052770442] 756;
SciE false 419 [34070926640008880212; 3452531321854097505; 57477178001032314011; 52436393296957606415; 1216890274687602915; 40350033088128671822; 65249735662794568004; 995134023663766304; 18955273249511312740; 29667409375850463783; 8097118696467145417; 6476783773351056444; 95764367460930489123; 12056149374551847538; 46785498530622168903; 10678721278755635015; 93887856208806316695; 13559487753144782400; 31670960360656175757; 5056557384022148460; 62751569020838680770] 750;
SciE true 419 [52330872178864919159; 6293424881103467771; 63464354511715796256; 80157504590875649650; 61260407177742505783; 55766947860587308759; 10671528004523387504; 51816681427773805286; 87668663550575767482; 90359718969833452822; 49129037805143215044; 98758935786771617250; 44098600023286511690; 48109958050738376524; 45398846096830699656; 10545535720187021317; 97896211773927381630; 8666371039269035770; 96852506972785978366; 77816541189764028147; 8973359630930041610] 754;
SciE false 419 [33242069394936347841; 41645273669947342702; 41721388456820192565; 76584119765871190312; 92660610065663790821; 44239695694846518705; 84454499241507744956; 94077889539153910708; 37640185929972714379; 66124168906294468533; 2952836633696394895; 3742389501074883060; 60566590126749853866; 85483045384525855585; 50477856576806035179; 54774581467944730197; 5185947673715501772; 78893379477070742000; 2710653424029485315; 37295335656308925270; 50658093610308083431] 760;
SciE true 419 [19574090030244434047; 21335124657228734988; 92240903861053320855; 30021565212468309629; 7886773373508239317; 98693608073483670699; 78848976650308351642; 23493267940104169337; 35230838846364197914; 81410049596925094734; 90907572236489059807; 95207103494104980824; 92443132331727391159; 8780119979599998141; 27215028995114434507; 89947024862600168168; 14267340930596263468; 95022984330857334326; 78101898354175041732; 13633680560164993112; 47662002343938460831] 763;
SciE false 419 [59848087935920190712; 51637705639237012665; 3475146823811163033; 53776097857233360709; 82378286418024225681; 28162641022551506522; 83979021502896218122; 50810050066713773137; 30529756188134992525; 98145922183586932840; 64924138179550537643; 71317354907924051284; 76520443621980214816; 96935137262912855751; 67597120604869943062; 13777043359299468588; 86599525522767412796; 54459431249389573043; 26721177899506134330; 51224768884345819401; 53542602509483273269] 762;
SciE true 419 [31710637541306620245; 24418208962167067839; 4566514867326868891; 97882011221379935831; 70971808364662074274; 23266664205313341609; 26897926042115486227; 61248164434705090369; 70971206432573375298; 47919929951662956099; 10020711239553079790; 65471852143834666287; 37160459340932641272; 40248286977372996484; 26773625926500843881; 59989849933365993166; 63270012023125012925; 21485179065535180817; 20006727498388406935; 9655263266601401037; 52830189640165023991] 771;
SciE false 419 [27328012013590340079; 60202538564966840117; 88906317364748953085; 33399396120126010310; 2404584018538861881; 53815729448551782636; 69496961536992163130; 97909683861913164417; 84908017981662481469; 98498416704244866936; 72481574488915038758; 87451536439734237831; 15328045144941601860; 46047660438541953427; 21279546881034771821; 25474052298552401329; 84942228434780382629; 36400568637590829723; 96222991615767313457; 22648080258530291837; 36196477170743136877] 770;
SciE true 419 [15238788428605039378; 11504774053617680474; 45672066670152731386; 65811936692401854938; 40583856936407599882; 42204691411870888556; 38530878988136135319; 45951224196932293605; 43498293607033753453; 76810354436271719677; 89104387257752978401; 81946895985224362889; 37138335018202318283; 34508238367949143451; 91149211687613093403; 63181574377119858546; 98579381940405916628; 79303590674601562798; 62548079893608415891; 76580053276793158705; 14911912929995343060] 784;
SciE false 419 [52816891283770605830; 7731333132578995555; 87106960109572593099; 16992608464599553601; 416444169883202745; 43220347636616930207; 79573599472311554568; 84987507179001978705; 6209028410072401487; 1905754808785000458; 86032377308734798141; 96999295434481931067; 13776496284107398113; 9548089862068583384; 3526750137235752365; 37189257924190093984; 84973902329137861127; 64562239393544911287; 4514238280550106193; 23435064736186836741; 68767747900246746802] 784;
SciE true 419 [11748068936121144731; 31661662514680096996; 23620454033000216107; 98904081790354720160; 48498428690063263509; 82666775508399353499; 15920337450028588802; 84476651811301082411; 26172167265986373064; 69133053055302454576; 54761107128945611697; 29072048098673803229; 24291048238685697095; 65688300401638810989; 91269512281296124417; 73427255202257668778; 63569626090722128368; 96669778015016245778; 35501338088841927786; 18270036210626441619; 68802514468533744168] 785;
SciE false 419 [62492233131277647321; 13789041533898292489; 73306126285038561741; 10708142097689652553; 73856437053335267637; 97786358447120246174; 60455565899299804349; 60721577470248122323; 50202780442603988225; 50494610105405166194; 72792518779788897879; 14507425007059014379; 10505905008089249392; 33299711278715584841; 29692266997214231422; 93949782127595831252; 49720712956533149971; 65691359417693165165; 19755872268243634346; 68459382722923692954; 35336576723143069179] 785;
SciE true 419 [46726559909548397271; 82789331684755237834; 28550742396333688414; 77995191754362737322; 54955879819142241895; 49386028779823201457; 56110828989027548323; 41321973148625966840; 79187644031367058060; 73828946228295038430; 25713838701891174266; 93926813264671970581; 76445604703401538319; 33636852129336125409; 75591669336555093182; 84879931210820156579; 55371528439473548434; 246671791395233504; 40243969944935753200; 39613233883990121104; 96358565995637548772] 798;
SciE false 419 [36817908413010803398; 50958873287726962513; 77269060836502878175; 17530107470500695285; 34947212338051436593; 50788394383444664008; 48515329756406032515; 16469394687910460654; 62025379099581934013; 89763718959409817044; 41215121020855950387; 210184656082324519; 54302847873087047205; 99282243531104034757; 49162068959308964853; 51574554258211988636; 82629391489327148834; 54159125405981018559; 18273666347914064105; 58045182398959934187; 67368306643900420352] 796;
SciE true 419 [32456155026455675360; 76990511118065462250; 84048437625308412476; 60453239800770668973; 1286766418017516398; 48584567760329226185; 91751896662991039519; 46460858385908213227; 37707096106340416256; 41467598288952475313; 26635338550183121183; 52070855249537245446; 44532820179539688619; 76049762828673671916; 82482071399428434107; 31126177177620301665; 7151243049446183637; 32390092737973138714; 91581599808076123462; 67130654836092834191; 62522821329242032155] 799;
SciE false 419 [20220359244338231880; 54937332388940414231; 36824600003157248712; 70756479372224952394; 9244199173197317303; 83593570903893201127; 79167622593033545956; 39372151520975991223; 21983040851370111279; 62709864440215819022; 56560856252953496150; 10489195534632483838; 74108485710311502784; 5824133869811569887; 44758415055893392249; 82702403756814837939; 54573204045041260184; 25351178463800777553; 96663015003461311299; 59877773535647108148; 75733376572097641229] 804;
SciE true 419 [15765905371031816991; 1616874598592139946; 52235989531694648577; 37857167065352327697; 32789284882622244468; 98357639858718290602; 61843423642779073760; 51927134476593699219; 98922227323309695934; 88352729514888675684; 8746339633465335605; 81408179413853205831; 23214358305279797745; 91378030921134510300; 28026836843583278943; 48857436840475494249; 14513219171526551874; 91107244326485854657; 91414764261715503653; 758590409594184864; 98577640973681869611] 808;
SciE false 419 [85781464384830033800; 92009927853269477664; 40616020465618611429; 95062395560333187007; 34555428752895275569; 22804400078825525519; 60617983412025978053; 6374637762627449567; 36350409688523399650; 17845469947323739823; 48067113070817622257; 35691152727420532856; 1451813179286295036; 39167227833995230996; 34936109162413927817; 93698985242603977648; 3533690140798371194; 83810108128211085406; 55257853670793689113; 88932079407118576961; 39909631969397860514] 808;
SciE true 419 [12171351609243598146; 63108808098532159541; 7602179307964036374; 41217548561659496768; 56542589939210226093; 50710652979400482990; 63791797225962328790; 91718167278334122476; 75094822690262186673; 27294712840945355622; 35912360394020469566; 92537553458081510664; 6578718609964731286; 87339306850414445131; 79252986312272848993; 92887131171548186226; 66541353960549219700; 83558391316485376731; 26698226747732577116; 41002137646865652207; 45603171174916833737] 832;
SciE false 419 [46973514965632163690; 39601858939210405967; 63993145508011382725; 15397153619447972878; 67254319537407319373; 1649823776071317727; 81385700771490701679; 2367956836589928342; 8704115160500231951; 70327396903533077173; 43778169168769619302; 71053226483015850463; 59548686947712693719; 23705243639709056775; 17189990791413883125; 87990509919819491518; 25306116877382439062; 19069404887789829283; 92192662884725021599; 76894454552287537220; 44074797536801543330] 816;
SciE true 419 [40929038702347377524; 88352606471298619707; 58042011901661056499; 74640602821612698283; 41984877524710141066; 49176794240098617857; 38940093095360852562; 62216943840373439647; 2719118752298209027; 30744080407098837251; 630452663286537254; 89832706189871898791; 65797365361801901468; 29596880968282313525; 96514169595826928309; 85698185074577452764; 28195845559601816562; 73465218274925766212; 79344964812348720405; 68998595177119242774; 45767485052015257453] 824;
SciE false 419 [34458976439358939133; 55348265433237598244; 38183655539745711466; 40706705700658424441; 32278675845822502311; 15659070772965174543; 16070784366550000537; 83613246806340696462; 70818460321199753257; 94018743319850285044; 87125885791951630947; 86907804977277550793; 62890864526235604409; 69114255482191029257; 92564414105367440976; 79728301037558502404; 88880000471525223715; 37226958866252766322; 64995678961200740828; 43462853371803237694; 86215343205289664806] 831;
SciE true 419 [10057721652543862907; 38949646857432990748; 21844351013020157194; 86039156334756782622; 21341139463889604754; 52084715974373586883; 22270250435446485993; 34818360168862969641; 32036093605091151368; 81729592114766492884; 96356445432605714516; 9633458369690780007; 716483265641995485; 53691138336515079147; 60094030468581331684; 50623098887441427375; 66303034891415085396; 25079111366757568175; 97623849253244012376; 47738933902072430925; 96212965185060098195] 829;
SciE false 419 [38924713655217820322; 37640229737977423210; 49133158248341791869; 18307054928174822052; 91331688098697693130; 36565626444591886840; 43933808551537610823; 65922662676896349260; 37051030555346433252; 42515299490588522437; 53324970742153759757; 62723447949761135683; 1699103175393592405; 37252510885951806727; 94058646640630260769; 51170403620984022461; 76941387978430926217; 19133350908232645963; 28869402933453127046; 20928106155478829790; 17423464403537591102] 834;
SciE true 419 [97597719297712954419; 29706507247648485765; 6134325504062094637; 90187576752054930212; 40930760937891054107; 91903046434959541219; 99353772151261549948; 19039337866055711854; 4845366929535480569; 23362073761926530937; 19618660807325799163; 23497252268232488658; 84355977485743967024; 94143980579567813789; 36242015676220260577; 26239663831253419458; 50681765771042510393; 87844697024097549912; 14522748621180918527; 98179954397181996557; 1832662047663460318] 844;
SciE false 419 [91983727438556402710; 85658041688050918793; 16978599242889907304; 63732029968987793332; 10469300792114515699; 37589987795952943086; 94372960581286734075; 27302027351456421575; 46758460115114580238; 78246059769188013885; 85568758415694249628; 24745542414759852566; 98556291273474904510; 66430996858959600564; 59267158137629157553; 84013166219920110000; 13636542651488000474; 9464167938369568934; 61220618611129051233; 79820381824814781025; 20055673865423358394] 839;
SciE true 419 [20023695941767234604; 80930251332157430154; 36378354264638700063; 82105766480730314902; 54043669979689572258; 56647006848966400672; 83214487879223430747; 10156608861134858740; 84109639547040643508; 57240706219686103219; 6707823058509215493; 28142516129794579607; 96494940845849173878; 70214920385105743964; 99645665043904757108; 52759682526940192491; 33347227947629208259; 62306133343271945672; 71392405484411227828; 23773664856384173063; 70012923913998237678] 847;
SciE false 419 [75283593456810279355; 43704452601439108806; 11601097157915554696; 37351218466791346563; 86034467199624718069; 77319307424833236544; 34923886340998836918; 74248248650573484158; 53937415228651087371; 71094570177655309201; 62137646377132081942; 62769482670321055499; 8794821612258485079; 67806789349243235622; 62299290446192476033; 13079696775449161182; 32924352815689928683; 72478589118741120900; 24109671776861635429; 31630657629042028494; 28294379302226296102] 849;
SciE true 419 [11249296807382368471; 17747381532243069487; 44709158327560912740; 75220226092518320413; 78380296674168116340; 88230706215480516486; 26121786722829331786; 69553705746307542641; 36936545030384449453; 46737366821225133327; 93200548506624544471; 47455015651243976291; 14715495522938458074; 69952625121106942021; 7671317504361188408; 29770404967124939188; 83269034242034224749; 46421472780077982514; 24033580379012449506; 31693416564335425448; 69721537306557884453] 864;
SciE false 419 [20180718892930223943; 61282043531516872200; 2078014799772144932; 64478438429044581240; 40319694919242716222; 29551742667972466981; 45386915907499012325; 83244642385817034419; 9514392713540548320; 71665513101485563804; 41548480993429231827; 87577959710924153146; 10964803726082613463; 56711780884982927464; 35122701336008681656; 81473151305945345141; 81012948884108109809; 88243286680639127257; 1209542400647243342; 79106538671271267173; 83230425677445389866] 858;
SciE true 419 [37123920365293398965; 93467620706397405463; 56688176923082850132; 2147751536410699722; 42111175488407771229; 75716261595728375100; 261168925435743954; 72289900431546625853; 85252653345600397025; 32743342825139208988; 77393154598857022957; 81115390535551766860; 47488981017521455423; 22759254364743110289; 23456844092893345772; 69607725352637333016; 48081660197474850441; 49388763195736982053; 98023370713083122027; 92347672402835712401; 54572443366724213073] 864;
SciE false 419 [23353992828168239714; 42287636046755844265; 82129698587509237197; 64547761719343867214; 45386180499859877586; 35228852250818157089; 95154983753443095511; 37192414459336424592; 16372141884653950874; 84013470572249146996; 14565225290826175896; 93998456963620858352; 86029231984319590835; 53576494337945314199; 37783240366595403310; 43329280900474743506; 78920145845503401464; 91427319452853235899; 85918869583972437325; 30418055667906004083; 63217985778616020470] 863;
SciE true 419 [54201969953659467746; 40701997278978744365; 31870035350062268232; 8747372751184757973; 56922630682692024657; 64218942737468050394; 1598665938268088278; 99421076683918894074; 35843512062194479055; 13807448163588865286; 81747763190314171048; 57659349893586574317; 89562213403110890968; 70037990493268354490; 31674157505675648926; 34252738065028846238; 22103030428832277145; 94728538688771110586; 46644183577659686349; 19674428358111535082; 28125448664602034562] 870;
SciE false 419 [40745727862642191434; 69192900120238996600; 46160921100003409932; 57858514060815227889; 53499013400828072592; 99507948110742863403; 23170957843700002968; 94194929746402375190; 90408298054266448957; 63794988992578827690; 36855523373981679529; 96484224210253645691; 37935726404842724122; 10045540055550174796; 56644336413955812643; 56650245927134211085; 9220549369168561322; 3146507399586822377; 44972507347507831953; 94931491397565813920; 63978699870994091118] 879;
SciE true 419 [78923492634142225308; 59718467608493250461; 383265585519250468; 78667468131977091636; 76714282148478217348; 17119018862819068165; 44812713431718206522; 30483767444981495701; 48057578541140978457; 12411430476952509590; 42123678487299230947; 6544671553165805558; 59899095508646823369; 46845214907064104503; 23155090744193330337; 50342330648637625813; 13404229669303812838; 26016011810540028978; 98815407409095417259; 65231385923492592739; 54780646475583562010] 878;
SciE false 419 [89540075468412134189; 48989105464696176443; 32933814331850188559; 65376764053934681810; 27221402146836570106; 85297630629616265238; 24745643651890632383; 82680534134578973905; 23295191735544768179; 84645777641305887327; 59291819914198166768; 77840319399248846070; 20106720834071471863; 93984858784734598561; 25312899645398761765; 63398176389470552077; 33331612900442383416; 76074516262133581449; 13636997028841266651; 60528241044352339366; 16954990944644596664] 880;
SciE true 419 [38807289881532469022; 7803880544393699433; 5232143181967356376; 83263662583940392605; 55728271253328251675; 66669195394262664225; 57684134014238407199; 31791691548072765624; 41119957126858350479; 24808932860056093375; 62373199977926721241; 2498270443301513929; 35511662971534087898; 48476073722074691712; 60275759027089376026; 28325122514356595433; 78296660599831788588; 95590519902333607481; 6207368435373718345; 18738095197008261532; 54800692229053461790] 898;
SciE false 419 [76456404374547568962; 53582334052206883464; 49276401730491614176; 91836626944910285272; 1283264701410489584; 76834241654595578879; 17510763903366385684; 67140758190495478606; 91296253223963906468; 77295244064962122242; 79289861167788916399; 35242869463521356046; 81198729353357654956; 99448722597262965833; 96840067412726753466; 75730141290537850822; 36456392087603052844; 77836080978170343670; 33425595795892296566; 73184959780767092998; 41902486488828740813] 886;
SciE true 419 [21104515755126258581; 98809958449596679764; 90681483605703420141; 88760246785958272683; 76847982574304626867; 92461994375441604232; 75011457938674488914; 94589946080335096859; 25859056643265249763; 48664447446533956105; 21435021783823771823; 63087755623908146533; 74452586861025138180; 89249112213562276178; 87322143376601829043; 74311534958053760105; 50920942027074022973; 40458911281037787405; 47166696376558190853; 61612949692003472194; 74183743486209008271] 894;
SciE false 419 [38994029049050579414; 56157549864931466038; 85403838146761497096; 95556880566175281245; 69090795806029265204; 58383090509224761151; 5581355279751414021; 8695499503892238034; 8828221104329183491; 1529369228894005153; 72088775761308207665; 37501775709692096711; 11416315124387760048; 42799159068756654069; 2743476876812357192; 6243942734998322615; 94650358885385513190; 21049352402179695078; 93968136148929220138; 71216075457453652227; 35503319646151560351] 895;
SciE true 419 [70381636494801248843; 78286855100769313007; 18643976635036127365; 73300057649805227115; 20848779886017731754; 39917116990138240793; 50141481989208700654; 48262818652548230169; 37629234756874367469; 34487679442604567273; 55897271087092671247; 63407558862556951457; 1498933070613274828; 1037503768916969841; 86387550853930572098; 93090180940002106642; 28196718127464308201; 84891745773799648109; 39263017948442637865; 9873742273230345056; 24988422945337237707] 901;
SciE false 419 [24488015002368941785; 15698726356476370245; 97274141996121710500; 37348395977813446536; 28885531471536013052; 30433519724259816948; 41351375242786365954; 64453929639974837286; 1960673580722140004; 10416269603104869788; 87177806557343725145; 92831917140699091334; 72076605464348562613; 77410809478080193491; 19679929259647219272; 74475819379320301347; 8323314047956917789; 11098027429848059753; 96012382859566557884; 49504712196055767096; 11351664945220428807] 905;
SciE true 419 [40767609682406979640; 25098174459177486348; 21745414963766161974; 57600209084935859366; 36944010036052972025; 58666159323985995344; 12798746792507370846; 8597859886170487835; 98856991424455561132; 21618794466906535177; 30703214964125139061; 45790161772321166337; 59849331351536201773; 20619906353492219329; 25232524265751114732; 3090775460280727810; 98295106700838183971; 63311811043450379402; 32686475480040010299; 81986789414220636500; 40082323201192061859] 914;
SciE false 419 [35315993392092364014; 83080588307318156337; 94363002599330815821; 65552686357131692771; 4580295282680255369; 23713623477804946105; 12334679743714907627; 69988140134356401266; 10340215264971119171; 69823033638623070282; 26992270091083437569; 52768538458052170606; 38390047182290849829; 89358539019091343520; 67918414327461675541; 26294893955695723625; 70176194790998879270; 14779975804399420113; 72987870419189908980; 62181491311275759679; 80609799526558521626] 911;
SciE true 419 [21369190963490810272; 69835409593640948156; 70565461912801884534; 4725010021511252728; 33749804451874670140; 26370053246060263794; 69997780655010792251; 76805688108626474250; 19198313065251931423; 86805901399585132978; 78999805282504335767; 20603746545992907871; 67341078472874708172; 13852122705966018728; 59989547333460061909; 54032657571553893588; 13893215675682950446; 74926563545024734188; 46534581043660320836; 33998345831764834719; 93110687693256361629] 921;
SciE false 419 [10354209556954028736; 34492060890173258531; 94627680282163948800; 61608689062951879442; 27248812856832036556; 26550847419760695463; 38952615251215843733; 6722477299015571789; 72045169826440757428; 82774324985121208897; 12188236052202392849; 74222739031107871724; 76625839322700310769; 40559577327895063407; 48065412389013087542; 76111381709164130506; 85741755709655742135; 84518977258539902792; 48852464882819989474; 54549363135863859633; 81306653252872757653] 926;
SciE true 419 [11402053838483486555; 82822987308069447684; 8442602816245434773; 80395268056463104788; 32629796733500222042; 54537018428680165192; 32528614937324357330; 83268877670114291369; 22699778153104912665; 99005300367411899179; 92805803507016404875; 83643638783946304250; 56183931588996397990; 89393981022500418514; 91409233685646851041; 83708117630626857675; 31029306707650715185; 5708028059236757351; 30846671578286067085; 81763477361638330764; 75299516147707682413] 923;
SciE false 419 [58056859782380983257; 81247413523980462537; 38469157310300880923; 83009067709882950221; 77356554273842865414; 62959761717577774269; 13753578834828194500; 16239297860120685236; 67997056243737086070; 88481117106635317719; 62490121436603208140; 85524726253330855540; 34077980729762676367; 44498840908673663925; 78629654075168666071; 77272225044691013739; 2186807589263009047; 50289333352998515363; 22699550239286204696; 48554453328749750137; 11303974152164947366] 930;
SciE true 419 [66772780000907001624; 26567032369445125412; 2840041278778748015; 88808693197232752542; 55676783833678110639; 43086641271500309243; 84122430846047787718; 90765852030273472700; 69421075345009136333; 51464886109662186655; 41073167004212841403; 69818339554165296615; 50201092045365231263; 10128491053250082490; 49748538682046169186; 34759150393629643489; 35797517302336694692; 75218397151194071680; 11554464251583343942; 77492558257902209230; 64513451594298149142] 945;
SciE false 419 [17205148443463342902; 98798157262751887943; 17563955613342866753; 3134134403304167915; 21089405525871792297; 12250994831438280846; 71128433713291472050; 26108741251474360686; 38092159966123358532; 56029588473443467119; 44211802094835331863; 52652329779460450911; 1692241250622468090; 6095916493520081762; 88343736045735342039; 53055965378997477468; 88735384444921005763; 53748242573254256361; 62817138963230371191; 27365452062454186467; 43186027000434150467] 934;
SciE true 419 [79363889248172717428; 89303661348529177824; 80957671493505462348; 40463169811240504917; 69653855290821338440; 8811169124999973475; 62143251370911455424; 72025914405570371006; 92788717076421591159; 24628493824202466573; 45019158575906166878; 1922267231972180807; 71519476927200592823; 37852764166908006106; 14418567158255189478; 88742374120826769421; 16163588987039058054; 9987509987260011316; 11833394861685402652; 24543825145901400972; 13891092345517078329] 938;
SciE false 419 [62633680303657094378; 85141245762735285880; 59915669303116584390; 1161862538864106235; 64713327372542017573; 1896084326343410183; 48844062599415938309; 78012116476356695083; 98645524280773043596; 76021990143253406178; 10943716870241916844; 66731406730164469241; 58675491651885913914; 38304332313722677844; 73846284706922822515; 38861344727441875007; 81028959335912768295; 89772468176878062085; 36797177271222400257; 59618264551032225176; 65130263038902846277] 945;
SciE true 419 [11713121803601529329; 83499434137960383971; 13921334064061210664; 57035627332512863412; 22738931318430837725; 74550426101095481310; 83453044082105199539; 16331832572041584527; 94447859482376189653; 76593264919732384961; 87466665265153236373; 92900311591003969786; 79031263603222604253; 80289674432297860069; 32059050468607327927; 10642121961610208639; 67924074764403294084; 18658380609184844533; 28358404817865346016; 37802502385876846147; 38002264239956973885] 948;
SciE false 419 [14263753004818635553; 72020180564686599861; 58777589784878595478; 52480065896983670504; 25488151734090776148; 26372151322372861227; 51474881753925442299; 71781732929100979268; 60886569247926508012; 32051414882931481974; 67102819291901672605; 28864166680922943869; 40600080020637049089; 14901643483024273056; 63830750342084969405; 12201676402556275082; 98610724390546597124; 74753703454648722106; 63772232244019351295; 39884526637116257572; 53874992651958305246] 951;
SciE true 419 [76151211461526855861; 60505216828269551004; 52206329654950751100; 95695482678739643568; 91093826728695188026; 80166134700532278115; 60764800356121217043; 34369114930559312223; 67878835526747328191; 61415467533908482747; 28889451652928002065; 78051812330222005064; 95335094202109169702; 10545478056042818477; 91949362004789186210; 92645387208578633802; 88433596634408987668; 29622032662706954603; 25208853288767042876; 74464114885623347889; 999244179564408369] 966;
SciE false 419 [11709628836254887696; 27641740479682220166; 3457631943687341165; 32442405343792849054; 26438120136062520121; 1373187571187373298; 41540122057656898430; 3404721453054865406; 50806765537813487476; 64555474365550897699; 90873027377247537314; 58246417208631642247; 19085163784261204071; 38425458874891411465; 77175079374374476739; 26947986840846507933; 35237254003894776272; 74360745691244927255; 89072088747809489404; 16969238030154175892; 32337439093071899967] 958;
SciE true 419 [20578334836160473869; 4201640640737315641; 30029072563093674015; 5590495838421156891; 89198663690455453720; 77201451311234954018; 75897544830661157001; 53302183479309637324; 93187812932533069826; 2000261670660172538; 31309921044683338996; 57461363945081624184; 71559220536715495823; 79147232852500727195; 4621265480675284939; 89327754260227316646; 11086605368955960852; 82112546576060563469; 91805732380052705651; 41348686316373528136; 90398329914565420768] 970;
SciE false 419 [47026408489683492125; 35790659414962552600; 89485866270014303628; 28702949653609262148; 48337787266798698853; 29947026300103418987; 99008050741146242922; 6144502221943678460; 23657693268884688798; 64190873553612117196; 68688610262321932370; 19817193473337188238; 892366243275123746; 33670331031937181531; 78301971304904486457; 75664700122816217829; 90383369236573427382; 84926828143598861803; 94995768672352548388; 49898615640707862860; 54991856832659421801] 969;
SciE true 419 [18046741736639998462; 31730064278112769363; 71955887355025325471; 44148590076775607255; 90136090854666786963; 46336410349349550324; 34021232384082118970; 97575189017842025065; 15367536273232513290; 58224241520653800689; 86141168563936000995; 48700749480811858063; 65195531532530727796; 58771184890892438617; 49232252704875408616; 1621061046384098541; 91658916990799780908; 15754589170286606052; 12470144253721377600; 89345859726516786710; 39352989860401838986] 974;
SciE false 419 [10322810928117168882; 52221748052576854588; 311187444099552027; 6869094459494975105; 81795465181473433272; 63041074268784793207; 59651381646204407957; 47580462618652880773; 41830864416204984716; 81424793278922824294; 29591671430598703606; 59576494229105147537; 84631852796872580288; 4389167509777969775; 10551541840803820900; 35740550493569304780; 29413384625152589115; 73199625239146117741; 34761711829143859827; 57185052021810703662; 55162712677560957764] 974;
SciE true 419 [16177750803669340675; 68827631898405139389; 45714554622967907594; 58018204826584677625; 38007950877768619564; 69704195284606455579; 98444233217442191116; 48265172961991600027; 26582841396570075936; 86789156108924983094; 66666625952156291146; 93512969376758584947; 60608672047260329953; 69974531572725294947; 24374455187985143125; 5241658683189505043; 47932214561358961987; 81633913023733314676; 22430861031936631449; 36856789648328482499; 57454111350599216655] 990;
SciE false 419 [10074082111507103223; 69881771370878321697; 59039148696508123986; 27005176310785783681; 17137927757367521090; 25145087028859072516; 69464215904274158738; 19733639011232603540; 20584646886342000379; 16023789627691726701; 14662356782949330815; 17089237088164800619; 70878980559523600545; 68282517136646665948; 21125521299742340986; 23231515786394728777; 22590037857073009605; 59202252654193938138; 79662183938945503432; 65202847574513213293; 28327542459447083257] 982;
SciE true 419 [50239225842992788388; 7432521923244836991; 24428647074485354516; 74205597795320973646; 59020301548993960734; 40247607887201911017; 56411055306114978847; 78992028781620324075; 55290509113889627298; 82505624947602612765; 6295191506009360315; 82122915255546872199; 27809864793490694826; 86869752837262147070; 58806061661576434565; 92213907186464798226; 65503248377924508650; 53227353692191566657; 67003842056787962054; 23113455905222410480; 99084228168243153368] 986;
SciE false 419 [23613086180501590358; 52714602638224189623; 14759013154201850989; 44073385686787551054; 84622041843966022329; 56408344415666630132; 14680808717485910673; 44362376963536927183; 67814173668008096633; 34113011380341521972; 43891202890569724913; 34351038721274200670; 83296845801928092841; 23462945023975851495; 60178423594203417509; 8263521298802750536; 83504430513907625492; 17600203771478900462; 13423380084030567923; 12682503955737485641; 85177460700546708925] 1005;
SciE true 419 [16148060199111996087; 21390983476555787299; 96242690472666270001; 53041502917078500388; 52499756170378413683; 59792185924320149490; 38664600738755341564; 83232192834899479304; 93855192412548064368; 20649636975822625079; 75521930124059673944; 87588123667191633974; 7496880611107616036; 1548592783037059236; 98734157399846563493; 51902365775188120179; 81558803283689832803; 61705192389896148690; 7602746218338080680; 53252122289416825657; 22749765768287325498] 997;
SciE false 419 [10356769826468090125; 10329588958069069179; 78143770984571499590; 76343592613951603270; 31966763077134100057; 47756010864664874919; 2105785040398442736; 42988685375147191641; 14566920401677617781; 35657886902058864968; 97555848235556492782; 80036780754030304864; 49302703078319141616; 4375108059867139608; 83277142920852377778; 64130085123115988410; 641912878843245800; 34818244107147708524; 47976574420367321893; 53099919075685844857; 59296657933368664207] 998;
SciE true 419 [51581100410344114854; 12481266056427909878; 52881023692278548078; 39463039348777381734; 50395736867755700139; 91296502499284268273; 11653045000569732135; 51707561571176348192; 16576859416744007807; 55575020656412334594; 50598590987623041914; 39726892733183282998; 2432698290735044228; 51086358475025030701; 55308631734367740441; 35849531717378220981; 4798721932204981861; 48060491076183746841; 78262159593190939434; 26675453834023566154; 76493290908910561661] 1006;
SciE false 419 [14800474895878659009; 9016243592080535234; 710339978796765556; 97422815019236676981; 39845653492222006011; 99426266991987460490; 6282303320622090004; 46553000513556132818; 58351716351039529349; 90880768785537832314; 36680320834860523132; 46931878622817505824; 78438858118635446861; 7159969536567635811; 92424142937481790055; 94324091219565556895; 570848354417657317; 72170005316072401847; 69258886727782808889; 58141478968160162149; 3575059093448483798] 1009;
SciE true 419 [27763255861928004384; 40427572181521722153; 3725160074243690095; 64441071365408894285; 45579317024347431741; 83284605482604396424; 72815951285160946409; 33770490179380281243; 69275789479452333355; 81714645692010097719; 22816268811686998098; 92991252259463881973; 56458488676230147394; 81321038047573572967; 17262235710487703110; 64012788318479245013; 35810542671719404305; 55997845766398756586; 28347175173471416045; 63817942505625977807; 39239031498210037905] 1017;
SciE false 419 [53010174298498610167; 55965012811272305171; 84653614748731286604; 11007891345306123432; 47281414886873872391; 47336310235261599132; 64416088688445353653; 12783812703851137404; 52742714766310669743; 69574142833566351514; 27876642887895939798; 39136835964318382253; 35996363516301328864; 69555908634330942599; 93125935138860668846; 11456390072182865963; 73219179141873364584; 25717727521710855907; 20051903753949500931; 44931675701288808560; 74173611515728614756] 1017;
SciE true 419 [84188579731737262957; 89636799826503659667; 26607151325078206408; 22466505551201996814; 57168682402773664060; 86176839711445647475; 97489714332568352425; 24436299955581500434; 65031695573231503193; 94981970946961133255; 8340164452409403077; 13094563253553150233; 55387585765869856135; 9733080326755055436; 13691256551769891781; 25922372948677817552; 84604819714819880761; 85994259150006327733; 86829159616284225521; 81663638113566187103; 11039373539950842749] 1021;
SciE false 419 [84357577464183249246; 23074556166574026167; 47724598204318206846; 47300937282622407569; 96612225026362314187; 59611183708144754041; 6841228970212748341; 98658810408198490080; 89511981316139611272; 63021911445568047314; 47708632648034747131; 79920571366925698645; 23239677933070633208; 71732994822786598836; 49533311340824364245; 23098721332418267952; 49057173675474471629; 33167887776401329633; 94394255507048423727; 91956527955216448957; 33967850138348880257] 1024;
SciE true 419 [57443785614565994547; 30131371925086386930; 46024644461800786803; 22314544013123438584; 21213095784059351974; 36064274091574765689; 32267579613394913480; 64962122004963972379; 93328693990851182172; 3018031627645726055; 30362831234955309186; 17975043391229483265; 20584560687021972441; 37122448194718888842; 31673373966410696567; 4241089169189749743; 54908269093396238782; 75867635801407224984; 47389550101887866471; 94202480560298321489; 13332573652401642930] 1037;
SciE false 419 [21320710151639306352; 79950511096140655887; 14632032375305741297; 8738094727918560722; 11677476126654327659; 85409724531719977200; 98774338943242755318; 62641565044545094602; 98309363129961205933; 72698965637374978014; 62930418130671245190; 90362659648934749202; 92512462807140564948; 88939843644778342323; 30874260319991901408; 66470387054934226991; 55069243803722141294; 97744890628760788938; 44502448544484975726; 14858517907494751034; 6043978369104589536] 1033;
SciE true 419 [51938537740051041729; 74498903074067798254; 6239888433781731530; 3797565860991713108; 5951843117834590126; 80270541027939995345; 15005393065142642943; 28594032963057441576; 99335869258871003588; 36747686700135038420; 2650819239419805307; 87691551184958914370; 14093256881526530958; 48017755388426045427; 93254486227268617503; 62754211167519790893; 35668607172554775712; 30498413666967489029; 4742888559138848563; 14132968264650144101; 90418908191659919583] 1037;
SciE false 419 [12045803261765449779; 87136575309890675997; 27386900061604407087; 83195123690196426176; 79092215750585373980; 32903437226912453682; 19016095862418935478; 62771348890354709285; 63601157438787265093; 22957042630943256537; 45359696611446936343; 65857893379133475955; 75970476903255838722; 81585944562131617087; 7164268903501053916; 95062941370642214963; 13358774731834220905; 16814050382527265325; 58577411381450786802; 21848668366135541187; 55443775013755558373] 1039;
SciE true 419 [13213569292308567489; 62489247309656767901; 98305787168678972647; 90664261683611579758; 99195109568437281964; 78009299734541923178; 33829198439877670118; 67783432496931959225; 65052228173007289377; 10087316035762463110; 12783109871825086399; 15862032661960815227; 30883763600837434318; 37476846664914434384; 58129626278161542466; 15161277831432710899; 82604778470031192866; 71864482498377027281; 81101406024619771945; 82392873980877343858; 97419511453683693397] 1046;
SciE false 419 [13515747491699920924; 46313410569463458287; 17019511151896321270; 49909596457124424592; 55521317812103137065; 20111842560257740825; 217604682794951294; 53117404315184457037; 39997178129553389802; 80002432661252313234; 86075975671493447071; 46116684451851941074; 44692259550439202761; 68584101283692594614; 60775775610667069098; 86053200269115087510; 53872101202035485148; 16549979524536436601; 70814830155221824759; 11168986824875888309; 22645919063350960879] 1049;
SciE true 419 [72102773557473490531; 15932725350522631709; 13705550675327483757; 40339903264959825503; 71647056285996359889; 85536998648506236862; 64383374226911397737; 34455437255048805888; 95581880624192819386; 43680453901074912194; 78016119899657214155; 14591338675662845404; 80177320908403500565; 68144024921095326932; 25427692914662554757; 3532731349462104829; 45353079562853807849; 66112059149468405447; 44295797135219851221; 68120290154518365194; 7096539737786411556] 1065;
SciE false 419 [25045169802991283840; 84576231017654652326; 44800684678386761560; 29521711818060415271; 18206296083508915890; 60324032103041165575; 57519363097879468489; 79732947709896412833; 13927322293047932906; 9662474213452319999; 62286592705791564505; 94449781182416442983; 69573615193351471569; 26565203922528780400; 34014818222417330203; 67960473602329931317; 37965890973924439268; 36719814637080060344; 95717599350623874561; 22238298021090662144; 80065539533841221859] 1054;
SciE true 419 [23320203023783482619; 51419730152374065786; 64677108169910561704; 93111294768560108055; 37137317580182041001; 42820923768818654131; 46340653339842744204; 62063785048254261475; 29978007118890307165; 2151150903091491427; 44028862202830326654; 23193312970934353305; 44676897156194568506; 59925584346484248033; 47529095906003441247; 8674764701926119478; 37580386397429231039; 5834849668099015199; 43595899883568156056; 72321074411568983235; 35089587299941122237] 1061;
SciE false 419 [92926267458583318426; 12261187646804507984; 14198653461079072500; 38756130856341956626; 40864519849146004098; 5390392393285521678; 18108861127090362501; 50498742306659594255; 67114700124477061700; 7153820168801474429; 23043954641205346443; 52084070926738191538; 90233721876658375070; 13617849956587401403; 9963720318650280420; 23609697509344184481; 67500511598340503496; 23134834802764462107; 35163705480618978498; 22267952797150988371; 41475008836134632779] 1066;
SciE true 419 [17680500436992045763; 22904279086613238209; 44118897891400922077; 64933087746983838322; 38562020725280481751; 48545928897783884353; 57289640080000975970; 21895741096946470485; 69335249337336163134; 85610450990621893629; 87881816475728652152; 99330045839832120019; 6082638194605757757; 4759681556291405329; 90768798076669500689; 97586862129033543403; 89590850048420222631; 83969551876006860201; 62987637279885691288; 93101685652364759759; 14727200458559752734] 1067;
SciE false 419 [44162984795003802671; 66275607115526616106; 68047008030608880204; 82208137707535820498; 95096356327145045271; 67389841135162264997; 99235549028169401338; 92662491512138895457; 51821612060763652993; 55309846655916520386; 92859399036197697523; 34429282412305232343; 49960688168645798351; 68087278681450005181; 74856237601677494971; 99666116766199841917; 4022989661872195419; 17757623780508117565; 68494317037215249095; 11600455613737225670; 71993198265613709649] 1071;
SciE true 419 [10995619520188454201; 67382990109150479065; 70253997891486835374; 22923745693192069411; 613771189827445606; 59113672167417775143; 35612295577626793107; 25768743661631219640; 53482508428337168950; 68212816407679107037; 29528863837437060735; 70210059084170240107; 50715566499194505071; 45235054435160740212; 70719436494090171899; 57973484842592705849; 61270973574364091788; 2679288388058189552; 32021335962358881999; 6660019055564465389; 41767449346519838142] 1091;
SciE false 419 [52688157704643804773; 71249655660833899491; 97374389915315397169; 99366911930607221207; 55605171122489601831; 48517986520332722272; 14590468050452676459; 26054322236376741107; 72175652292840886285; 84508547860749064965; 34632428084590744969; 15603882625853901409; 62160243301695818577; 37873967758287348653; 5493975727908803078; 81421645700588407147; 41862721332716939114; 24747179345679939649; 48951724365924173490; 48292813959189998569; 58917740817135429594] 1078;
SciE true 419 [10925423689354184871; 98201747225995961953; 73705369434849933436; 10209257378953362474; 29621820739703218491; 88145687265128239971; 48572911116352856296; 4714886754214932644; 99711752911018599148; 33429998443334345660; 9297699775096884091; 33035480982759645773; 44264551049990592371; 50026581509630637491; 42387324703850638057; 74433068538678242470; 33852627609427681795; 943342993365503636; 44795431099579498341; 13556070465916607815; 14595988722465168621] 1088;
SciE false 419 [11250874191561100330; 3354013521045938528; 9235414143362364200; 72017724348906681780; 88332307936385478570; 35564654111569795583; 56688073202860371442; 75612111996136635774; 32974414518146371611; 14663433171698884051; 86207655555206940031; 37872920432716013416; 14938937646351496389; 95001550063063581334; 94592412485777810021; 61184197450034354924; 7594971963151710507; 5652129840828749292; 43554366823369935193; 18688436572668548705; 83856766412854762945] 1090;
SciE true 419 [25582821158154366398; 91008429956391249388; 83630205678347364872; 29662630066339001528; 67830796448403522755; 88865288605224926715; 22559048059035022807; 17480207396226502425; 73429362104015665689; 35895910167011061131; 81126925743874312036; 50471515631953888482; 34414855914826972552; 76927788172443569270; 53759662793412379982; 18210482671378615620; 8771868396936004185; 74225892126090359233; 87661385085592026113; 17604763516559895679; 65913119129934268832] 1096;
SciE false 419 [15303882090959532171; 92367212350640077314; 68542147054469813282; 25361576629087075975; 19819863304930942084; 17350669959441087351; 91540201299375322147; 69183728351467558777; 45124133673759319998; 86059904293466267426; 76273997473228489953; 3722655314340331608; 27955856783670708695; 53754644363060093112; 68768740417615835304; 42441887664032044695; 38800417188886888653; 27178394102621072189; 11273823724013385381; 78781861920216980256; 5326950982144280481] 1099;
SciE true 419 [84444689666177929474; 96062677245856603246; 3020031667746164653; 77372937261122431523; 29395938808194328564; 55263937634467483539; 15353901925946614305; 90969225903560402284; 89928432495828931155; 32742417562661208322; 36211366568515708348; 39195441021139431431; 27589035183840198573; 61236397489830857642; 2487411641842682548; 40645786031990345214; 46871766726157824967; 59100453106698670201; 33465346346317459574; 35171885138138551767; 39407030697583232416] 1106;
SciE false 419 [13722242517203700917; 10860512983274360181; 13746135705497009967; 96645997743208644570; 47940657893234149983; 64041237586016294207; 9723713871645119430; 39076957252010263726; 75105486217561488788; 71173028414695583901; 31867124537868956494; 73767480094363230650; 84751714344685647676; 63603633392334262841; 53553297256341874613; 40741856808511189032; 53413595173296177980; 15066635382942869740; 95447903115349838345; 5543560590160969628; 21215566531281028610] 1103;
SciE true 419 [24158811092057821157; 62476666633013155295; 15704980800075698425; 3388410187686556231; 59381413883022565303; 79054695105991492501; 45569340712997372811; 42909897108655552240; 57082582078568038069; 34070546075724661645; 97665627362173152471; 62026983202372785557; 80460060928785642979; 64370062388506413085; 90342263539779308565; 33141414919337687355; 61604088618087179977; 32183118233589591759; 50108626500687386314; 372414871639421142; 91163777758939948261] 1111;
SciE false 419 [21318774190614823436; 56329491889036347619; 80742957434979778642; 95368463869421318179; 60443008565082392762; 80674103031378417078; 32049739006221315129; 44804963098911108743; 52703150464335482916; 31698903303640100144; 10552167852847958863; 75134584742527617786; 28687408936752315791; 23557866113189096032; 30484707371390763124; 59226981683394732236; 80483170906322880058; 95226221160608184014; 40626254091387188914; 36487605052455118644; 39745342749500918021] 1121;
SciE true 419 [41576027322562119114; 53478987331509252803; 32766867462558934270; 35409516844532872476; 24347734390616398549; 97201849887473587634; 22845670534108505948; 41539262198502358324; 70833146622637534943; 71395681505465910996; 23016471617592338302; 49725371727856810080; 98894411203700324685; 3816998480929041479; 92704466811308560450; 21524537286737946057; 50340515115946501991; 29063930368257683644; 12027387474302727512; 22372491920231125913; 61756176520481701691] 1118;
SciE false 419 [29192848835314412802; 26428385341388204185; 71289835379434247959; 69178657416024145630; 42585356870041041917; 51951700528522658408; 76106674663679991836; 96227704924361621984; 57049890400901317782; 18379805385063504784; 81030608101616279058; 37170671146888972817; 99888788782208022443; 37371575957954188735; 64020395856677162224; 10346899869017739261; 26215524393799954312; 12816563366531464045; 8764944582317579965; 44940197047820297460; 26863318229261800368] 1119;
SciE true 419 [78082829440778606627; 44196370271532480505; 94282667093151380675; 85130662218877040172; 96628733674367675639; 57804122161228060921; 19519968587470721374; 10696112923265080656; 32952314548545920843; 49353884567196398679; 41526409587473829654; 8973921122199370716; 62034470289266625166; 90107342207270575309; 24495242464197034769; 41352042412534624210; 783727558320130783; 99061841497089546492; 54271397830942357564; 80975474269485496588; 73919085063780623385] 1132;
SciE false 419 [44079762910544956928; 68544183858324300064; 85784955329746850278; 86271089537745029909; 35109804285793842110; 51825028442818565495; 85984923938396482519; 41263402541498144987; 26536039955814366726; 22834293469716534898; 98809513128474826819; 9645231323627059115; 46596507597706868488; 88123353051512681291; 55648391425387380617; 72458894263801366265; 96524516047098652088; 74538474563550281813; 60880812472653051944; 46726215154738797972; 72557119130261214570] 1127;
SciE true 419 [43803938125898238087; 49635905927598666037; 63566036541015472268; 86697285354027681645; 45235670398447463623; 81658364623606397926; 21594190620080826890; 17929446630388402858; 47838657028240848451; 3839365906731702500; 39592394382311639296; 65891189333701709828; 50049622365268353459; 59146619219656235441; 95359541352239029876; 61488155889758591520; 54603357248126852009; 52548983194535565007; 11040757249700742086; 89569393261998293683; 39189203490607150531] 1141;
SciE false 419 [71553165990888685229; 67579607580922295845; 59320559242829880767; 48768431571606512166; 59267807109662833247; 98846622569403717499; 63770364898049966582; 88836571716966219326; 6079102329192970740; 17801977099714250303; 666424984715028689; 1787800232010592375; 56876427209576365255; 79914403141861872136; 27891602301367301259; 2922189170601129596; 67772362139576923795; 21672239797112606948; 51800153004641802595; 18372252517977037903; 7935721683407688702] 1139;
SciE true 419 [52436034866358147206; 66950350607414213540; 11841795429758535601; 5676807887291497545; 41312669455303132813; 61467640028528795053; 68923922245528490054; 67438437952762783796; 6836216075996509454; 10292326443584744806; 76217985286206038291; 62755719952414326287; 74203599857027266407; 86091721913688240849; 22563560313907317713; 35109151979395715629; 61434022149407830687; 86134771979061506182; 86909089138549370890; 96662892159157824881; 32518652567603171511] 1147;
SciE false 419 [10763473629443551855; 3881548348800727344; 99843579817912452754; 3428870962276687063; 36452653390575071931; 83552123859515682341; 20183767762494201600; 50267893363542589445; 91365967356645496654; 47989392802129321764; 63708246679748802191; 63126593529352405109; 18823113550747640633; 31565909522037581059; 93019824721738986888; 35657296963279344350; 10894723557749409265; 21637901303826529475; 16589721882345665803; 4005644447568033454; 84709918477596767156] 1144;
SciE true 419 [44025370321238667615; 75502328130524657792; 47612092659433501725; 14616508554528979286; 95373174382649407998; 76820368684304553731; 45636407891969978678; 46043079328971781070; 4543896015024967859; 43256051302860751110; 85956368893681027732; 15024908522428023383; 71972483289663701856; 8554808921558027883; 44391181103295587538; 92537300831115301854; 57466381515257539578; 84563075141898053528; 78538365316550913230; 83721425780693800074; 25356571338973774432] 1153;
SciE false 419 [19141806346145918781; 25046052324276952914; 31417077025274029383; 86786607162015401742; 13054736399644562707; 74733543915796684626; 52314957411117151419; 64724555863041741288; 24042030489881187790; 6479754632279878399; 72655333941142607220; 28623943706140479160; 91423282775235216630; 19682867654809874772; 13522203054354685583; 15285624604560588720; 91848114346544117745; 20299669283483048334; 12044975353938525438; 53562967132416466056; 29666235527759027420] 1153;
SciE true 419 [19971152412173966965; 12808115816438792954; 68108528379689146634; 11114740520905359571; 48068814002161392105; 12038017619023119930; 77967179232511718806; 48829402802252585378; 27408377693218437182; 30617404303035873; 87163245403673318574; 34040261678260093590; 79205709491368689965; 66586024354355633772; 49213753553228651835; 73714740412918097114; 83768165688765133255; 24301880390477296509; 33041055917489661863; 21546671188877313627; 11021190261449095700] 1159;
SciE false 419 [21321105390758846665; 91682681005739676809; 33968813588760829622; 20766207921884292007; 7977629501785531063; 57294983493693205537; 34392008453842563595; 90698557360420063951; 10581469584432719077; 8376925609141431103; 77026342454294244716; 23440780797533513949; 41445485835226565001; 63924745947888944544; 5111436617668083587; 49442875619891341123; 36345451904347090107; 91432773135510847405; 97388253702476491043; 67457797337299248734; 67716402757156831963] 1167;
SciE true 419 [66977953861406249709; 87403262977006606015; 23510899422059619600; 87784225639022127098; 82645921850837883018; 97197244776882462018; 18533577891084780586; 41350350091510034437; 41108373322073697532; 54373593982455291436; 62974678572179722308; 48003806441494140949; 53738028292716835779; 25204077586526908061; 56027985639953234463; 40101721458703764318; 73022930675988693897; 29163185079400987358; 28495778755799110035; 53385830460353567508; 95436453191414687882] 1167;
SciE false 419 [34984862923870208894; 79345960605021698406; 63120412650356849502; 24340511408942235036; 74771136941229333374; 87810776475065023232; 65327456003769302489; 97252477583587842947; 84076592676478768657; 82384121086332849392; 13424058373775267773; 56901975027389167031; 74355308193976365095; 86633392184817933666; 94712499166033841419; 50455631401198783165; 42696309800987622146; 23635677861219470910; 11521791311741813572; 43238054310159996761; 27342419113975578200] 1171;
SciE true 419 [94222609456449836113; 35741957770954095262; 9717843543770551795; 23730915956959573596; 26671008570117400925; 23505162430659394902; 25931041332025647812; 20991007267664363322; 3574903680653524560; 30161857750186884397; 77032352272047444059; 77722166738862489433; 55124362951423472445; 97842331918456102570; 38251372585410999761; 36697653170949885289; 33154206067073068646; 87585501767487852353; 17076354738359737732; 75454311369493452006; 95622044752568331881] 1191;
SciE false 419 [84132861820447059747; 62976192814225973936; 83074150229601318437; 89370513251560310639; 41315482247431499030; 81825403606546022592; 72335768282459155286; 87038437299738693788; 70630869445488811214; 55112272687746511480; 85984649782838048883; 9874348433022458479; 15337861381775138450; 10593846793512382733; 4755784416028628878; 58616394465648271744; 32490718785864624011; 5247170839712865374; 99848019348931322495; 88053898889503596152; 52834727378674062426] 1176;
SciE true 419 [55776697063936762583; 522316078176084616; 95386552501887327586; 25125830783194178145; 23466313151809741241; 26200462122259322991; 98907864044389337799; 71641277303581524305; 28163244715005675727; 24606971558846029838; 5798635994361572907; 42310081371084967758; 34425156215719684666; 30057956840624468417; 88366200427684952906; 41474270916414250506; 90837091508430399603; 73303482519600438297; 54690755421162655586; 33176018702647335917; 5384097737167173108] 1181;
SciE false 419 [11663604071713673414; 13113270239306354992; 60689019681786889299; 1270171083788056534; 45486957861888285835; 1301595671389640947; 21194498761561666974; 36676916533106164785; 87118127691050626532; 53624926485057687389; 22652173507723276446; 37550420899602847054; 30995413097216290909; 42846125080325013205; 915959156393952051; 95415878085174346047; 23320875972090468558; 52499702014238442555; 49338759880823477311; 13129806557948188498; 16236467802237874328] 1192;
SciE true 419 [15323134178066737642; 22468760600687942727; 3347555980704890903; 80343786563860229927; 49560469966491977005; 36019565682731117459; 12970895351935674806; 47312720680427034704; 88772613492597759710; 97352488085092293918; 97777931794119247868; 25796188601321358127; 35218969759296404048; 40301804467945581479; 87263375773747077481; 5033167753040194632; 60689927027733646504; 46622846077899480097; 17360484468506050944; 96257390431746880984; 42354653409314625614] 1193;
SciE false 419 [29565625368262348813; 39437420872764531342; 97185503819418184700; 28638249196798606281; 6638216330175981086; 87027591104379132986; 2360036402267007210; 78086435712115125976; 94486435968451378442; 30581041760039067419; 26686200034410442494; 36908419937185761453; 97671889855973319331; 31114979400420668939; 52037091145096641479; 25675382856543239453; 64428525931497101809; 74501395050517640543; 90388701752154895459; 92650267597803872147; 74432603950372531070] 1194;
SciE true 419 [44590725787470987547; 56031092991066231712; 56282963054371492802; 95286058466866253176; 41158501764672841813; 20452754566802329841; 85576624573620517891; 29748465742794379373; 78954046645279905467; 53433470963136965466; 87949764108878938283; 6238303702491027232; 76169754122929929090; 1073794908201028942; 66423126492645570037; 70480520518379490399; 27240671127952712058; 12656657399483376873; 21842852029596977886; 93065340004247010505; 3476869349473816018] 1205;
SciE false 419 [49648188090741477647; 10242596054732657361; 75165162476165881931; 70091683375902407933; 50158082950422891222; 44479391704410797807; 9199039342471923502; 67776469165215033485; 1906783768497071574; 11919403766059890286; 72198326490381358190; 29526135073270804045; 61032820273138747555; 21119443054437456269; 58274452767837553608; 20034588664891462435; 99232995102028001401; 15707197345321391094; 27612724497288859046; 9570598890653520552; 8262146910808751200] 1201;
SciE true 419 [27178507501090759242; 3653937655588741701; 8473551080879915087; 75507210849669791674; 40521062823826172057; 21885768364378977526; 32842649428178985143; 6971377038872924402; 36885001597620961182; 9098234279589160023; 6751820878197155220; 28115248271047060312; 38347474762752465570; 412040194883766793; 33123163215415233579; 84381885310127427826; 86629971402728659343; 63894757252385507704; 74541185267738731846; 98490335018863858250; 27870224970424271254] 1209;
SciE false 419 [76462255531881688635; 63056627826856954668; 40479312961837149011; 82318450269546951330; 59214829218221911253; 89162453555479942982; 4329718146140214392; 39353961443384607547; 49817744015090813174; 93444999218094181644; 71161394374400452445; 32441720184919137898; 70356306036948415489; 52352933139878498218; 56569578406131778886; 18536370554571956894; 58152145658182607553; 81285005976174652436; 38476065393682221428; 42070817861023748282; 53244879069753873645] 1216;
SciE true 419 [10639918774253598009; 81559563695910407172; 27768887277065667261; 65358390559382359937; 24271263855666455066; 90700447459067653827; 98405562638880299069; 79966911793914207176; 44319828334288265535; 25014949584260133710; 41840220942673520780; 34474039813540104015; 50126086477242352857; 54763116764690695564; 96198838837800941771; 43548722357740355420; 26830838738618113467; 72819425389296988055; 23393301441547071862; 23293553280298793152; 31549351631255255988] 1218;
SciE false 419 [14375545137339778825; 65367132649919081536; 25861319614210998919; 96326401251245132867; 92892073117587932959; 62715131611761334296; 70105853253015650178; 12883794919859062235; 56556723181756368408; 24177575802024162822; 14528578295331612740; 95812152603067810376; 81491710945869555564; 26102189413126587519; 4801094233297311766; 58970646685843407771; 46626569602562809139; 27877945271687042277; 67904426837097740805; 13047332658653574803; 96123927927442225501] 1223;
SciE true 419 [42970852745795006319; 37861520723742174957; 71974929264091879759; 12376976987077534393; 39387606432354803701; 12513323826904309188; 2873484676649366205; 75876436298556490226; 48474940695181723567; 54410563897618396433; 83844260724479933894; 44964582749190817274; 40768246127741827384; 50046796459660046974; 6025699618010427641; 22809765171159041239; 88313548259311025624; 35502749164391779016; 83291399073505679613; 37532507943882328956; 75422195186653330163] 1227;
SciE false 419 [35644219323426261853; 12085342817704900398; 62481543500201955428; 61134673527219864068; 57058410917607057640; 76984391362146961630; 73569980502382178527; 33846816557883914734; 50467118945930118513; 65524526527508091196; 45464591256704268434; 27777334609618696580; 37301523517739096540; 27811155527709903554; 75218082648569378148; 89263422432923177660; 53609013794082453077; 54557215586895161625; 4811589961169980416; 19917923482735989162; 3260213382495757108] 1226;
SciE true 419 [58016217503090600977; 97847639237144290205; 27571982946630281759; 27705722346642965312; 12277926065436413341; 77987868051745496487; 41023758979191372424; 10013747368472672086; 7262185477479560387; 95925878516215328687; 45002723905324505850; 36577129401854776671; 23412648786039982008; 89983970977312830100; 60151910144838893180; 15781162566082699096; 40815602901414250317; 85867240405288128414; 13650824432688106868; 18011481755613056755; 93718331532348648388] 1232;
SciE false 419 [48772828149698408576; 84263425220099465133; 48643906496229584419; 91011944945953678023; 60966400758071029; 40855520056440089171; 38690643523594149751; 23219968358592332338; 58608749406217773866; 4483629994941252388; 86026407711522071489; 60985162746803849909; 96075123352093479125; 81193157149102670488; 20584062987325389465; 22561640850915275805; 74571664697397803674; 93489709951401883440; 16056991188609762398; 33063866399696346339; 39033259919725596958] 1245;
SciE true 419 [87287465059798584229; 46876227141646994001; 55858494673968771227; 51286011010823101297; 51815077893036555365; 22115037204754201962; 41089959832852872685; 81073670068119006241; 72563041398555809330; 52384290087458838700; 51163247510179216513; 76404305993676170106; 50243316533633711621; 387744485465672923; 28021433785068284838; 28471138454570043963; 15709773250601465795; 73054945506830959634; 94309361002992401728; 27617374396550393456; 52781780081415093220] 1240;
SciE false 419 [87134782702932109319; 81386788219820788588; 94883488777800866680; 35914060137507637216; 79477771670557092672; 14201654827816027486; 90476935396664146812; 52003071854957941358; 3340204649496380154; 76587314779203984065; 32152529737119874010; 87724453477981361033; 62066745973038540593; 34345476419167942373; 44305478988472963823; 75647858948035513757; 31649944297581679255; 97448557707204983546; 17578871987364385176; 77830044790425435122; 40541917803131251309] 1244;
SciE true 419 [33825718847518346639; 47856531520183418634; 63436633286152605018; 9321911718721082358; 16615480630446168170; 9858733023150407217; 51423230616315393445; 15342457485524664488; 80915293751503852141; 73545111660769314361; 41773437917308401452; 69789048204233838554; 76810062246921557691; 49867254331731830468; 17837538105733071204; 67124310764937794016; 58195562686286182794; 39372912926727358185; 37217648471619833225; 89674161335650923015; 10825222527896322725] 1265;
SciE false 419 [31035153637691503785; 94715765280224237717; 10704558994273892252; 66904452276367269592; 3764579779956190560; 44482296174602352055; 51688500735775381482; 42466885104789318865; 88107813971455466230; 61148745284317382589; 5221928641441362885; 21502605412040171567; 14892810173789992506; 1912513677815826184; 92535559614632109060; 62099664091251666892; 2062300921049472672; 42137580291641364796; 56441024779140059878; 83322130961401606707; 85975430433991752791] 1251;
SciE true 419 [14863260906377567179; 96136349639510679521; 4464861550119966356; 73007880194887530464; 49594521747553483538; 46241181155449223162; 53793577843478952397; 72204136681313636378; 28981321622563723899; 504917991908812282; 30024092946352770323; 80443920344080677136; 11277577111087269786; 26087377076426113848; 9834066757195254791; 47462362605636690014; 54150769313249832006; 18157666202159123806; 96199801317075217604; 60905314945329780479; 81888531260313665118] 1264;
SciE false 419 [46625925191412176810; 32888244185108757561; 59192513150412319180; 77570864181053093172; 74233355528747528650; 21473434114960553984; 47734711232648720768; 4881883063549335712; 13536062346290898243; 89862394709421833734; 41744990015033852686; 92888450461093352441; 44075189195086311045; 39218604357199245961; 10918165002127454162; 29008939418591345384; 60324185431093567660; 1051390904006449697; 58289301048127866389; 22149336847676399030; 97492947262345890683] 1260;
SciE true 419 [18834598236857832311; 35590384930022406521; 62692119406796981616; 40308909407876923426; 60918193616632370682; 7694880115420132309; 14048337501080233171; 86474160642965296633; 33962969200285476237; 90419019645501575939; 20750901025243151820; 98833984861754561451; 80231659067963326807; 64317010580930816172; 59253513098813443901; 3297007547347309808; 53628190834024405389; 30858237362383038765; 362477847061327883; 14557845784876983684; 84568055385893725112] 1267;
SciE false 419 [14598829968915375770; 31308727240026475589; 87561107857157251047; 95598610216289690292; 30433982301635931151; 77498607640386631215; 97297671778039223681; 89835709454906277494; 5123506069943418224; 53667335918267780586; 94302136945533305192; 77687009670598144362; 50179482144984403023; 36180296759938669508; 82144215549321526577; 20666505341276159004; 82683752526873594872; 44630793782523467463; 22953731201200102962; 43969124778853968833; 36107736747726831928] 1268;
SciE true 419 [62339558488622736583; 3477558291095593640; 7576746773290481778; 44203655998556937052; 92896782231896693505; 17221764797467957453; 6985286162065124376; 69079283723428488824; 92034339002825640491; 7633549882142242412; 85887788683741825779; 31872857944182821000; 97941333774061780885; 13095770537014583009; 14702254356203009678; 27566402621423674062; 45997494102242837859; 93165282919504150471; 74503546743713896875; 2936793855962277570; 56418759155706213541] 1285;
SciE false 419 [58688241373958389508; 53680575031055131100; 75727687295593950163; 83459427268599659691; 20804876611744418667; 21119448414808345151; 3899741799930563051; 24211513983877966127; 54347876101705161575; 33950279725548314241; 42481949663371612555; 61473688039356427340; 51833100123220243109; 8869575456871604206; 6402437142100390845; 36261646976598054679; 8632202358262837070; 34935965002783537149; 69231437554357922485; 1316213374446488894; 40715360076850260216] 1280;
SciE true 419 [19038541099549658108; 2490949431302881453; 55445713412149451146; 323467425144372053; 18954972725710056888; 58623256889194342082; 95815983314129867679; 18696914962860689321; 68834314793536279992; 49103017384428477399; 39711259420041327877; 72809558627319117058; 18535702027914003037; 25947973770573367709; 55396796319680839462; 62183065798376561052; 8314519728543249129; 79072644726137305108; 75826276987639076617; 20373467100461596548; 24902015834425782775] 1284;
SciE false 419 [99287946011975948371; 71290154964613046152; 33924106266979453307; 61866075062558282398; 93259821239572445503; 30435213597281705162; 4652319771915987095; 4425538830419378932; 43506514602988166124; 62800949883365469063; 24678023165738224121; 83090091043232805404; 90836965377120131796; 79997229573324481608; 42564743863071648916; 83203164833190056204; 68512470588131442220; 43140893241799574300; 43739836255758709579; 53522591475243842314; 40809503876002913646] 1286;
SciE true 419 [22119136983039244260; 51004904010278008497; 49507279858475615450; 9630852761866045011; 61804161283689263928; 94260562370097961415; 34058385450805447565; 15072746479745080059; 89356710279021918822; 81079467895046757762; 61561469838441811306; 5797670880252100965; 86878015860119150521; 10822322399842284307; 26070031850515309260; 50917658262374667177; 44661241081198758567; 98035502926803077492; 84054923212423742228; 98426843908613728236; 90232126513778313562] 1292;
SciE false 419 [17413635579886589365; 22021848083701571067; 73838534618571804853; 73888501521702341077; 49111364864252587718; 31549361369830265592; 95948778332960766322; 97690332270010712268; 25657814345387357597; 45048453558125738034; 26536631231107444662; 86772166891164336905; 91220005177822079235; 46407440654730498978; 62024711927898779981; 44187263086160502493; 30169963942487830166; 80026730816430428787; 85371074360494604554; 69007195139420124767; 11455180440160135613] 1293;
SciE true 419 [21843956090890437815; 94135390967818300695; 17480713958291253676; 63689307092517790111; 87833302029289298987; 71313290905698901049; 89695007965651048089; 26235307970099864142; 14082313467976747959; 6780318511255613149; 23657086589844382062; 80092933141965434890; 48154486258797556712; 98094534478641378842; 82756293069710376957; 83650263296326055457; 14427942501755012681; 32825325541081685945; 67493718012845965254; 54301741599796423152; 77898737287347168296] 1312;
SciE false 419 [19487569785411534942; 16333214052063928086; 42889494747883261688; 30603282366384194254; 92728276250814463797; 19014447194719089913; 69276438005477669302; 8881340426742219716; 41444032992467809046; 35953689467192088583; 65887799561166493110; 28144308532149016286; 50165490007164017129; 61864632685964355674; 86263321312430398754; 36806476072901663518; 63614250626967841235; 29985062750841353515; 34896999881875626223; 15201621001397763720; 36612844759301816520] 1303;
SciE true 419 [35378507437010677741; 21044219026158187085; 26748201734885581938; 37729550564149534736; 61454465613034180614; 87058302215700466975; 42985676955658066884; 91187745236259111281; 12538215528889896152; 8325582609014086051; 43332826882973467128; 46821483934840689571; 59629059988515998565; 74134153051335455370; 1080428697833569058; 10208339574791634121; 7892414095345129081; 85776279814512565008; 30327916254950180437; 33436465719750020169; 94718557778625797331] 1313;
SciE false 419 [14599530860350931805; 15468938363129520892; 83098553172335662787; 79144697412623433740; 83234020671365635800; 15710280744632523494; 22332352195445850021; 11883917733975309994; 3144529759438016064; 82353296680991871748; 69649332914055012441; 6602566120181899335; 97743168606638070816; 52625565919332474398; 76604960837309960763; 69333368557849642163; 21179689351490177516; 48844377603121632590; 5004117666919481140; 78797335430039252849; 33368152124575030228] 1316;
SciE true 419 [79144656229369386625; 49385963230931692287; 77925449835083427642; 55046092881763062570; 55861397460743732681; 74279580416124861051; 95815524024621342404; 43481402518056771048; 75129259201562458819; 15683344548719982183; 22845523892973451859; 97818057011605536023; 12723952861663752538; 77870178916906128863; 16968584735680958922; 82566795649695173077; 7084764594829844943; 96431649555107409586; 47985018336955227609; 54866025767570059446; 26924022473138432206] 1314;
SciE false 419 [27490879591775517512; 51643921402722349633; 91636101866548347166; 16945952782850654527; 31767568037224753083; 5277275387459231211; 36493005459136655317; 87397067516353960490; 22418251720849409570; 96257452533965345099; 14388498886442069784; 42421584848834672566; 51080729100912875327; 79362053218796050974; 50517230707926327530; 88576299711019187748; 6043195172716964807; 31423417237450165086; 21262157318493161008; 47197052476857556330; 97004816207700936560] 1319;
SciE true 419 [10033759546679112186; 195523478319170175; 26640965792247242267; 66423670979526694414; 33230885234985568483; 62163888997493697112; 47078983609044174610; 47093981600279946178; 87513172193438505007; 70360480034589649497; 28967925367578699505; 48683342177299197828; 14795983460497616660; 20748499882174770186; 11198012873432053412; 22391040779876925850; 55953783139165443845; 75609388242888883562; 33829993723569938208; 62036475314232748605; 92131405185079852121] 1340;
SciE false 419 [63251646034250479774; 52360155775075165161; 86098464451868235403; 6961588483399155673; 64126854544232676897; 20829476725476477395; 11737138839563181136; 74999881871473875007; 37523047314114590243; 63162000326884037142; 88975726329085741622; 58282001800931152455; 23304342972375903767; 4670079139367806780; 54753892128688598648; 11527377134729993100; 41105126202650845028; 21990551500423498581; 1557734085530147936; 39380257306066419162; 86144121959314661703] 1326;
SciE true 419 [40403651578051348284; 76964688833350591691; 49737775521724663862; 67606611452699132247; 57650397075431282662; 87892799182544348536; 13594612943581247288; 63671923212304501826; 25753724969462622558; 7608494490699408687; 91044499735828467215; 76627872669544981936; 81612263424680620125; 11841845492429030823; 4599338438172663849; 65376910114012949282; 31460086839676061703; 55024237175297833338; 61523860518908166933; 68593462562220593121; 55426009106401579220] 1334;
SciE false 419 [49165477699762723102; 4282296793728876682; 37995235517431600574; 58384597562305231152; 82277420105146795123; 142759642482295942; 28500588553750773785; 68156521806108089159; 94797588015859659337; 17677103434279712083; 59524467099120479485; 34248474813827466447; 56712897131295841964; 28149161235221315112; 73545855041635395894; 47683520135706140627; 9908098624817071498; 1994634427210983541; 84871295462533579247; 68349726496825220306; 92664751588129214375] 1337;
SciE true 419 [41061235346615546657; 39690392722878527688; 68944127324878881676; 56661591617854152684; 69465268651711376536; 51653952229822254486; 65622930559248908904; 98372704729041022113; 91100765019766095709; 1426618375630359578; 46918203502350964986; 15908932582912152045; 17686529291245183855; 1987880279344050020; 1709956402089216548; 17522736541334878136; 99042698353069661901; 72208879669237414173; 97981925913606706379; 52665256946895608245; 90101044114846486747] 1348;
SciE false 419 [43034617263851421815; 18920908941477900616; 61904289639335139126; 25869008881353304066; 65178300789758654430; 3981291523197221891; 74174613495116509558; 34381362008509869978; 37171936827363861214; 82277812533612030581; 89697475509109499790; 33647634125762480722; 51871532325501675409; 63371237714024222907; 72328838597079561517; 10148652905855268643; 99688928859346091795; 85100446632414077272; 59022311875855973770; 26932300161405146781; 46247486833253120963] 1343;
SciE true 419 [86137741158660121465; 42669611325178800432; 22268421169222661765; 20647277807751909487; 32622670913448385803; 72579305465551190328; 69301208960919783479; 98455337199885051666; 80069335371984621962; 2001654029199021346; 41784833103360116301; 71815062898855847566; 71713653066623718140; 30288852393253015086; 82521899099802007137; 78926341112943447159; 30021997554953830185; 54910170637404043305; 10569422467210694391; 551903038243505515; 61035174223144042292] 1352;
SciE false 419 [11566474044436946267; 72894976808927036803; 35302573750388428684; 94305602059971957344; 27857598879928342324; 65048344743389166628; 4893115068268048016; 53678097066805793061; 10760355403676073669; 85937521478604085252; 93884702758786109646; 15849698429067156682; 21192404519611847931; 2263870421762017666; 42097270693228626068; 31505496869519819941; 52276891820772673076; 806813815695951559; 67893651775505828109; 60940012368408625086; 80430261475887033066] 1352;
SciE true 419 [77276006854663370202; 94147864029560737964; 14780819760946113519; 33957292495710008139; 5035225983410782620; 72530104601481094830; 67083516598225206438; 34465010344507082908; 83374070935381770130; 5329755413136440467; 45526303180021134819; 80698940100294251840; 51326344083530662542; 8894231422753505574; 21204471898881528173; 35043018726987735161; 97942840050854165225; 28604637891298125948; 11346107653920010125; 10781129922425692987; 11138140476421245816] 1359;
SciE false 419 [51520933058117038136; 66196922287964548606; 23808848345854402409; 19056175354662878718; 67663185611408497098; 23902632700440937201; 1685387439476610322; 97613795338298362826; 84498496982581859686; 4813923417628379596; 61545005265026959782; 41066155603071105880; 97946844119005712630; 7091002333356983810; 3473701822896215483; 2344964594510084703; 90142241830515862463; 16064201085120289949; 21788110192108379574; 30264007535046498661; 22120838062693764114] 1372;
SciE true 419 [45251930430611117995; 65413937127745341168; 63279824317304782003; 45182825604354820176; 2720481632440496463; 98365039697034548296; 95911933301488074810; 49707062663364890285; 40146676408937581668; 40849832088764693000; 38115100401931327503; 36958840031707568275; 44407696221338838985; 4267418304238647474; 93429303711298773159; 95101021280808317572; 28809466199487325392; 10393798135731405396; 38165900057440215614; 8251250062881206910; 42884491066014093000] 1368;
SciE false 419 [20393893484258172818; 62255256290223667556; 48876178086465690278; 97394034092775228712; 60423553014466118338; 75597622446750660583; 56731255350463919789; 27055572883629975651; 15112953697955426440; 87145163412334918330; 10984046919734748336; 52915385504221617846; 92395024065821544611; 39097154619499938077; 32394544200107862138; 83836213882879220716; 41088986062368339369; 19078238779948956767; 29931874956551630731; 51133536716857010378; 33512019172607846092] 1370;
SciE true 419 [66680947048897650065; 99061158866306357800; 6300369937869777167; 79016860301488645962; 75061594965336094147; 41288207103988436858; 44354089641153323876; 67278903448581416746; 55859290952798605455; 2298846248616653106; 76140261753210051716; 33431126493264854818; 93407586583456803914; 36100737004754122099; 14965968270386453429; 38393615174212621273; 82218716259347643701; 55533878094802991015; 57571750322265924027; 12082301185431993849; 5172551923792594895] 1383;
SciE false 419 [25285757288070458518; 7385797531306284922; 58398069172663197598; 17657145754642042615; 34148344905728778008; 69608163097550841155; 69967559905116945636; 5826823242991671472; 15016157717720045483; 89643500358621646527; 525627158532223734; 73435633452105633031; 32683540682098028207; 85117625515278233310; 33790110044958594050; 44383237499169173689; 64911324424923514347; 51986825305469596022; 32165881345437727884; 14544471909827827700; 89610367293604507490] 1377;
SciE true 419 [16121220619345783506; 47686595304418117637; 67866502745389885382; 34501155819633570273; 80942993902084066166; 35117374726695364268; 17105271971027360107; 13410899705497866765; 30728243303287357377; 29932953653330693269; 40091094687274846837; 97704996395602897546; 93297254464927669179; 13320869736127215368; 71972103845582058779; 72881275714326699711; 33687356265695870519; 94421814573266763054; 88537263141103826969; 61712914796528208555; 48140523937433250309] 1388;
SciE false 419 [42361086981223051498; 6774703666841935855; 59675319448487630527; 58469215122315186272; 1769387306472569766; 1925904242158949579; 32312141998158753420; 61025911078633987090; 97231061701867733453; 16144061865541030462; 24939446392971910395; 75900762334619484620; 10320829744521938144; 11957566568686980180; 24904920722361611427; 70018872276402136228; 15483505675864451834; 88466023787464950347; 57885901323609279164; 90717828313129581618; 92600172314639540465] 1389;
SciE true 419 [63154824821613584418; 23850780869561689911; 6236915725151665912; 32729596298162878199; 9243033033512264574; 55776061202157796153; 26177514413858338436; 74450790157872404726; 13965101209160022330; 82773493681938036093; 38832339982246597248; 82804959832047994371; 62955804982903054438; 3636757290340851663; 86005667833692515256; 14250435306965342899; 59201329455103379478; 99043042882127506265; 47327432785033671016; 97193550469008559692; 69280365660588776471] 1390;
SciE false 419 [18030854099349230248; 57059034308920526546; 32340051200269541259; 39710049765845217048; 3513434541098617319; 35554469477192706437; 37399396903273481290; 73921033421027453119; 26560840537094013322; 95212718568780397857; 34703615664216883410; 63450859131698772920; 18325346417849627250; 79023480986435497587; 12177885541905581556; 17763505317278049588; 79457069102295440748; 27452565890940607149; 8538717548443534686; 66532456083699788965; 15373805388304053729] 1397;
SciE true 419 [18146821976976974905; 4189048436543226043; 72682671236918223168; 13898810993596194187; 86291399614776485026; 33263540154594356652; 42416355331888487963; 74828500129806478017; 32964178992646950645; 48830367661704947698; 71098817731552250188; 30667224623307785541; 11327473791790453016; 61097533740579611234; 91210387764382343137; 21587835165686853306; 57104508126312524797; 10877538572539661268; 29189644921791642313; 26382042388418004855; 47296710053877976568] 1413;
SciE false 419 [12107903244008222560; 23253843209208338069; 28693294312290005044; 8140571144406926401; 40196985922673552688; 59112157195649659754; 11856935634744894993; 52463853485169840678; 11237022374381204787; 34184123452449771308; 71212670217256423016; 29704069937699705288; 8221496805787091609; 19949109625592965533; 63112978233444350940; 55884870533637545756; 69650244481798544984; 52271058116105183596; 37488125320743690863; 60671966306918033808; 67556983798332675194] 1406;
SciE true 419 [52001897887765454042; 20659097960865538776; 40467368712000676448; 33953582944535116877; 24751895870371112409; 78394956718370595712; 67612752464457479483; 68070930803053221280; 61619779295572386553; 15316049468215115664; 2511613640254203066; 19450684403247585918; 86334728278683356279; 21954569959707077697; 4960717251185017621; 35602966279590725211; 98888576872590481380; 12033323677257552121; 41171246903169184966; 918245624850130617; 63686193679121169147] 1410;
SciE false 419 [14219153879909756617; 286404839652919469; 6756111824279749547; 164969054922584194; 22842294344616226353; 85108125489015477309; 15763745097857001927; 78870127383583000734; 14637994904722776793; 28446300804230765426; 78373559543366691694; 63706433050757099841; 75379274525678579558; 70612517901110466486; 4532563522922057493; 68566321430337029245; 73946376542651735983; 68289095885597864283; 15554913086147992649; 48106683420124415205; 7033146054807828945] 1412;
SciE true 419 [17306952179794189355; 52018267375898281600; 38223674009418995191; 42734094526258564031; 75828770927422151502; 6168767365172818682; 55740384765817523545; 8165757577013608157; 70930623908407336661; 5716994451317879125; 41875141667430050254; 6614836050102618484; 19344063492546490863; 53674245036821788895; 49634575660995035636; 1737091019912598133; 81694178693961661842; 93748683075130398781; 17328402536110296353; 89175309243073864494; 94938314764951752131] 1420;
SciE false 419 [53540254483596501902; 49424923134927214343; 99129679683899551311; 99299249253046570567; 76050898935622456074; 22077942576844147684; 5138618049782164976; 30412986769865565025; 88629377200828634722; 30187717902826241130; 43329712426848934915; 9415262020366001163; 78721183938486783505; 72329842382393735936; 19671239246695524792; 88819136060999090743; 77737343608759507203; 38408873965879297372; 45940213127968030080; 77506478000133562792; 30275199879094653714] 1422;
SciE true 419 [97695626230739138378; 43297232588420687985; 94468585527180358490; 14920101652234034828; 23530931094984527991; 6128079387064719134; 16723545190738085864; 60323142255256119591; 41299117482115874437; 60933810110111229399; 98234588323908863407; 95255580080246023902; 18388401306168847388; 81826005715865178750; 35014078824482748487; 12046890055778546223; 50379376805571948719; 35418036884401906222; 81340873569547361945; 98152388108023526803; 32356404713192315950] 1444;
SciE false 419 [20433762017042656735; 41235867035965958319; 71895826085502328961; 7886394545796230353; 26276192287813044411; 41985535126990041891; 7850998097995358304; 97991014148694439791; 33180236689964929288; 54524719508378893354; 74994821290864650679; 24897187104357742126; 28839302535047639327; 92211717710663298108; 73045893480407377931; 43048356051193178903; 88095371173886159789; 64308437395523332310; 52562451521211230876; 68593681568124585233; 43868029225932458483] 1428;
SciE true 419 [18413172420853350109; 77319183816745799973; 17573610833243272923; 92794117493052112731; 55385132175659704738; 22280484470487067292; 72427219932597014582; 8902733042002954189; 57067466427762287248; 29306429894781639506; 94946983908709395673; 13627289900862945288; 36118253002619710767; 16085481926401372005; 10001074727626070375; 78867260999679197361; 28875434184205321931; 45824107123094171987; 26692540349242599974; 30099007057188672849; 68453193983162878262] 1433;
SciE false 419 [25099439734327906451; 45401689746927499834; 75336661264602990516; 40161049464114064065; 58951472297979554968; 32870716898766848306; 16272944378054667163; 97710576171091629109; 96387338093308571603; 98733358956525271677; 38864439104218713818; 99628746948080892249; 27208428368827147880; 16134546443653934550; 22474241980006168686; 22243126147609709606; 57718908593838790596; 70935945895132165488; 13870188293479988305; 99411740569508958412; 26922174018578980486] 1441;
SciE true 419 [11034386201538187023; 5595045448894887333; 26286025932396882106; 77368838192714370854; 97964683244013130624; 62226631295867292566; 22890386050309525578; 97448799056757725850; 61435527995879860475; 41610499919284210297; 42271876558841533212; 23946148130939885916; 54002954150548298687; 44788239511854735269; 3076329332655926140; 41926771842875508059; 30190838242822664720; 69469983806391031209; 89474123852648456989; 51409156435423345186; 63654752262614547987] 1445;
SciE false 419 [24395236970393154959; 54755827188335630511; 9147531695194256390; 51222551457864404542; 43502241416792528161; 9601735892952029385; 88393368397843257697; 45942701722607611187; 64488652945709643002; 98252887704035501004; 78775498507463012507; 15532830694416281593; 7628015802333366277; 44937068417163406281; 26683982680490134392; 38350932077656116492; 84783414730340163928; 10106010974018327245; 66239817044592941633; 63714822456021168854; 95036312515379859279] 1446;
SciE true 419 [15808191995473123305; 93701028766533159152; 61797056583620754143; 31597253692042838196; 51528503743068853615; 14934627452302186357; 18036161277371610217; 48127564196236625214; 38571464809786890505; 57041593869990965673; 63619409017175556693; 97020088156529228680; 15773782052340374270; 91327453220103983020; 62740780053635116642; 54854884983134306549; 46432878564466315050; 59526142011543306608; 44382718109441999192; 89718472473129474385; 73937489008226153310] 1455;
SciE false 419 [75156913982943573241; 91300812941891069941; 89161487895582352839; 28641089662474992041; 42915154298129788312; 59968559294845331063; 85599301205550709259; 15565685497738230066; 20506906642282580130; 27466149998886292668; 21038850030685218907; 3160839618970425254; 98596906649432774374; 75098915590760498016; 93097643734782744038; 33446480495608071194; 6192004566053429167; 58339605573149872511; 45568953073077543456; 36821589220296012389; 75285670508523945215] 1453;
SciE true 419 [59703516036061948240; 10505839879569580551; 94218669022971576357; 17045690311704420887; 58918467960514296343; 50890301013103336267; 86590842572164277229; 18541496245289909390; 42498413058867591751; 21022624928061807153; 30960193199886823150; 5343031960568519991; 35245386859479267135; 17111080847355330854; 48657712647001906755; 16003504647948910324; 25609431946393091807; 37237733829400514200; 49259498385586062694; 55056189993386827385; 1565069435756343261] 1461;
SciE false 419 [18996709821126970795; 79166332127096710815; 9639327081438597608; 68396972715591167297; 73207196057773617273; 41105336858096498020; 67989169178111568509; 15741543699503589154; 15394569851078777868; 83974224167957841903; 59139844199850723713; 83738127850248659036; 56605943323380504985; 26969242331213127326; 52488341374437535156; 79158938014275101591; 54129556851160610231; 65106717663146324222; 57520584874673765968; 94226577567855834870; 29794726397179634430] 1471;
SciE true 419 [19914774636381068970; 58880379002710762101; 9822536088856729958; 45053466113423081304; 99666015074114146279; 1596680863568777885; 94662997408112752578; 54515075380725087664; 15418670036656196435; 84218109582698830826; 77003517771107197623; 78684063592458064102; 24275582707266728085; 62994670757443189802; 30854635925820840445; 58255669250943610651; 16349017787102803982; 2209580474852770493; 1787958608510848527; 83541315023613290515; 71646720048750676912] 1473;
SciE false 419 [78786318903659605852; 46452305502962826625; 87049018559512562723; 77932545127373706053; 12341454788879622163; 73082444811704321329; 50630389864290905850; 80449661307254565101; 74752137939767181511; 42022669491614895113; 19799605710225707359; 76738169401559142358; 2034693524920653060; 48365507741334160915; 9642338463232016089; 90488214050035681579; 67641928074934287168; 41196804056990926208; 6574476944410341022; 94950370592361590536; 57129485965051043496] 1473;
SciE true 419 [31334981823443310310; 92341090057297556306; 27358189145665334204; 96521222186613334988; 85329057873173367322; 94609570109100299489; 93679714920184618267; 66938720891372520173; 80339559354084578048; 92578634400582515689; 68214315341018068139; 30969150022266517166; 56482537950616218312; 46388123003379576216; 22373318022606035045; 35389332565238848579; 89099916555052700371; 69239704912281942529; 74706926506775805488; 72307338476203099991; 13241600841642245732] 1490;
SciE false 419 [32717422183672939825; 3915703551365727002; 6825465943194753741; 11818960341802767936; 12555231070924525397; 90026802040535296017; 81156910290146258057; 69582790187160100289; 2217369507676478904; 25864353963145513523; 59943160819059352850; 42427226578757512606; 31177063737510774718; 67038188970266749496; 68698632267598157039; 36028977031890724188; 1656524344247086067; 42814411140410559845; 37248368201601887433; 20844422593196199820; 20239497441168124072] 1479;
SciE true 419 [90432839260763326527; 89552695043059888106; 7671516613544081683; 93473295756098678888; 35441157624559371855; 96196994062712702680; 47690708678480678224; 64432647428299037714; 62688087844601616532; 92157330507645728339; 27024163088373702233; 6111129423141467770; 24200503731360460012; 3748551605679571681; 32164030458108907459; 68340605706153703978; 57586973379572985182; 12038413191205193117; 92394644406434181801; 42282360197830384766; 32050192741409732156] 1485;
SciE false 419 [16820615640321588327; 96028640079425228938; 3433507073115279447; 11889760771053742640; 39247172604145204263; 63350813470162632667; 23792980367575221508; 21453288720107748938; 33754127112422181007; 26836434766361023080; 33465001821199087614; 19860875331125449680; 30709221841245831723; 56217900874606713839; 687338833690361984; 78845886827587456596; 9724134663458764888; 12034670994746820704; 34803933483534279358; 95385401870559835915; 19845513387419541362] 1493;
SciE true 419 [11489003559521331230; 86336020528307521468; 48573266118373498525; 10558407072018381281; 63945571746980126252; 71207159002952635798; 44069192511360172281; 28643759129521633770; 62036082655774105915; 84524806176541417082; 17128135356321100175; 71032443496251598208; 67792928734650139197; 28405282765339159894; 13578920253254591757; 94917813930783952120; 43759855970828945204; 77420619971830797146; 58098794750308017279; 86793632644443587750; 31017792317840555907] 1493;
SciE false 419 [20872581102078093526; 89887355286006406187; 37739847644671446132; 22994079404684709357; 78240840958333990146; 72274401389474716379; 93664553906455002867; 6089280415049764792; 43350614586356033923; 11483724304616775307; 57205153301835245148; 32740495849309654097; 12909648716791754339; 51390312310538072081; 91978129188691104818; 29059746328235930035; 54028473540217052453; 94097365706978464114; 46679452022667460299; 78777245432247697993; 53367589345373905358] 1498;
SciE true 419 [44256172618606996540; 89804586785680960717; 88903389797513617211; 95381389163440824813; 15335981720795558106; 97852172012143128969; 57403316207337758241; 32184740876643380813; 21170821436922200263; 85878059540298418359; 64335254138335128531; 2909912604426036720; 6361577282575433808; 34417845913794085184; 99990806995829035852; 68035226269790508823; 166223957659878344; 96831837966927257742; 84818378752499068856; 6398040534827314916; 77425224548682362311] 1511;
SciE false 419 [16817641650215204568; 39948737377262411536; 92176628158605376030; 71006448364812721066; 23970164730657821223; 87287060441706589508; 34283770160868117780; 51102679235822331463; 39328187431184890567; 57993707793604056449; 23098647922291141512; 54931206879601838193; 61338986171096362706; 54655401129055199588; 38767648112791831684; 56133235611783731930; 96755447002961041416; 56539318699699180510; 31332657189803525364; 74471059364650232658; 66718669468846506070] 1505;
SciE true 419 [22780650621315505742; 72959516953343137298; 15409839259062555614; 49451874523915114129; 72207357306740358678; 65010818769814308400; 58123750332355684203; 73718093605819716307; 63812403426205938; 83041568312349546394; 85520310011893190373; 87207352833775061558; 66405855435363405648; 3851313849439707965; 3724719291887358916; 17703543755996959008; 78442965364836329889; 44396486499407590748; 49180078283629407248; 91797906653638706645; 67910669989259991628] 1520;
SciE false 419 [41595484063593537516; 74945142125122868692; 51222714755834905814; 35051041170969067938; 46066856826962581112; 26640040453540225011; 81581740567676012023; 53157986437463483490; 27024554469546481110; 72542324528557343472; 59209615798079942728; 46205576579023657987; 125963388203479739; 77832122132059785227; 96097042787111256882; 64249925787390252857; 20292553973026755720; 78889458149085996777; 57504777097074391089; 70794016275650692911; 65603279153337390767] 1522;
SciE true 419 [15054436136970584508; 3440459758389353668; 68420357100458370636; 52685572382809204628; 16564642206054230207; 85728410526172165465; 90327235696991833564; 52427891321498082001; 1679302241313970979; 67178465742921704566; 77983194884445361085; 23463818080208109912; 63136262880229567629; 10972211596309748023; 64423352076525954204; 64260473896904533989; 3055703345582590187; 95730754082545783910; 25498234068468781377; 9923289218480172630; 46222340645322811822] 1523;
SciE false 419 [22592056693948002362; 77775715908333782733; 53045847787668578659; 29987009747116510021; 40637914269420778380; 46339562788320487398; 35550652240736421576; 838845511177536806; 94835969771245484387; 62338949210111596485; 79008301188277323613; 55166986095835422523; 78096134695240351380; 72950533094134286789; 59404115741522248121; 97400935343182106946; 58851047514154676316; 19770708729570287451; 29576470553888358983; 55621211303075987618; 13693226410320107248] 1525;
SciE true 419 [76826584557998460023; 4561138520568766241; 401806055689133274; 8933304033833098105; 2252588760035099586; 89585589903485399270; 20048497835826301613; 76812845989910280342; 45242331457122760212; 9700152356798484601; 2335478373358992443; 80560352480766153681; 59984136629663674054; 13908489672762933172; 6055343456497917039; 63522962318806911897; 24446843231912714178; 64922395909252186774; 49460140914450192413; 4638242898521389875; 55939188519352983972] 1533;
SciE false 419 [20053341296350723620; 72149048394428636906; 45024870329413536188; 40858850584394306901; 13160227784334912793; 38210258313849413451; 59520561174922284672; 70050457396353523155; 76498868781642085901; 33634469973608139567; 19166643071825406912; 29631515597853205214; 26820887296853931048; 827786579651362463; 21435290004194886403; 48090399341618535517; 36298652454806199653; 59926408179925332325; 20651261187107527853; 49282959959652190354; 78804679794094330208] 1534;
SciE true 419 [10251651997691811726; 85604812132201206161; 69054750766726497529; 67642124379818357873; 45868045911272762894; 2525557998222163732; 39272262707444995825; 91933928179946237628; 35891704826921455118; 2199998308831960532; 95958662113274630945; 25952883113412399794; 20170977930403144308; 84782327178331653320; 18110642582749481859; 91152312824007557027; 94789800878682565938; 38679505156728268197; 77670151164858774214; 57001290363858984943; 53434738945446773956] 1536;
SciE false 419 [29023590098335407900; 87987945616257534143; 43652700910951321885; 14484932313043081897; 23824445061764160092; 17013005760809797952; 24928363747899786132; 20750192881423626545; 28254776272832767824; 52086531485759303793; 34139078755211873880; 30001826559724656224; 20041396150483055191; 92632078927634398631; 56253961019590288409; 44094709634831162787; 76181782267512216946; 84415133392430060005; 50806361018680659301; 67082347296902495223; 90089478362769159287] 1540;
SciE true 419 [10533340131913093341; 27452699980110081095; 76513623489216410560; 49914580684330211271; 21411048726930769741; 84264628080390152603; 88651086176596696017; 43768199623030123217; 71606733378300123214; 96979814215232333959; 73124541173475815310; 42333990466564321214; 18070755266449257575; 49586162007626637626; 22111062771620741033; 63590843410802070598; 32005496444683608355; 54921376443035646448; 44383923283453687033; 85939902897058588981; 93695081513049505424] 1552;
SciE false 419 [17184363198331998211; 39406160612715266631; 88466519876343822939; 47861880568715039722; 39921994589712758435; 13927719614234277843; 76558186737595957648; 15998082942577213341; 38022683718118918207; 32952560684666161011; 38453733605610661499; 36315235200358342121; 90648238646497281695; 69246603331465783202; 3408127869647535127; 80243853126752466803; 2277513993039039911; 43716616362468502956; 72349634702900967206; 70812051739729233715; 23780478387475927133] 1548;
SciE true 419 [64685023339215881816; 84718033870658637923; 69122660372110726709; 50932492684295030861; 40703642986111593324; 68443107380158258749; 30836790977124452164; 88836640892125068642; 70478421814485078201; 84938328054120761544; 16804594107872409882; 73861501623775780566; 32371093908867464579; 58065552425537689507; 95038383425485330770; 91282611517825988608; 98079591793311652182; 1046822482363978349; 2885382676610206918; 86061518643594656107; 15449903857038220398] 1568;
SciE false 419 [13840552522978030493; 79172499781070868539; 60679573619920212247; 86661270609938134411; 26038110690458549328; 21207784530884573423; 60940603071297508842; 50464413054303204757; 47587262706165175163; 11793265946246151834; 21812382722130133698; 69445217281336828366; 39277948606886112831; 77262453992526775332; 21494891965023089808; 28336976017779856240; 87351328661189564581; 15542761869620936210; 98271241077640189495; 76494456272415752646; 73566105441683211214] 1560;
SciE true 419 [17015307613976490176; 24635580636679802355; 12224627541995100214; 4319741699531220087; 39028933045283973443; 88346570326622636000; 38138596108780411338; 41653532272203508887; 42119441516223752380; 56541935700510515070; 17310727594438419521; 23745540321833119912; 27371073245640447908; 19620258161752174404; 53046660653427810385; 13256184707897224124; 4404408602115862440; 77749735551531790689; 82084819719445508205; 57913672182609731215; 39631534688896911959] 1564;
SciE false 419 [19768162875149742913; 61395163679533597185; 83385162450880327610; 86246909394363835520; 19958780014662587564; 47166076320354684015; 54278156537196470535; 69708902692800789084; 81956210324920853249; 78464134058029623520; 45386385579189604334; 55739093576212481793; 49673720351986597639; 88055188366436801732; 29107826308618656126; 88271996172658857085; 95080728775058309231; 55318461790138539382; 75245882139333235475; 62681089655833772353; 62151415225045348675] 1569;
SciE true 419 [32476138645317488827; 71836369942305010892; 32969987087928839278; 51991357877423705197; 91878422293904862419; 26845195415454435694; 11235816931305075415; 55878982739155999759; 31150663401290552146; 7842044522087664721; 36268754933314879846; 19484473835995158650; 19336364751738683383; 13377742121360043197; 10702031475693895731; 75724265453543728264; 21100160624124223940; 5514800008668721566; 94733951690737777376; 42768247267742702079; 28941274256835096880] 1570;
SciE false 419 [12684712483907479178; 60268368341219996418; 44373482208651295764; 46137359792924326478; 39697140775582574177; 51389576444253351399; 20583837188543887730; 44928021077123182121; 35186456258514202715; 25927636199986340308; 76783748840221857175; 99931929540806444932; 57247276990224703932; 66409173411796773672; 11722762295359113868; 23958902038477678490; 52679411813756535233; 28380787502350483126; 9211071772709599313; 29408661092794787664; 90190760373506221584] 1582;
SciE true 419 [23184909249869334594; 59481903208005397734; 40875657345867681383; 49235135876131627737; 98569755003396710867; 16305839964709847232; 89983916922492864802; 98576540855710395902; 97919904942077432193; 36905288144983051395; 13064921637307109322; 90323105273106351882; 41201072677427747375; 13998853107013247028; 72730202571385832055; 36438713973510160545; 88812241890997610724; 62945038188993517978; 39759685031140822756; 39472417102774393551; 48147771974714650741] 1587;
SciE false 419 [60541145840099930515; 21677211572045838478; 21302977073387994065; 52205655563768948451; 24704338819523429560; 57887501212481428957; 23875104564645203984; 24904105518796695643; 18564518668699396788; 2955971363157521241; 57146380821724906403; 44515532268860027804; 79730085345353592789; 1278467198217256622; 17278881141324863559; 5314811224087354299; 10783841826577660386; 82596905246329540010; 36390434029697465068; 96415607631807977812; 20072675373220924239] 1582;
SciE true 419 [64265437995697055319; 81719080077826417671; 14210190505170744680; 81567490851567917971; 38938352971483203848; 41233088210968880278; 75070772230009429357; 9697561129454288130; 18914758971791850829; 25647473205043210248; 96211955019550675660; 59387573724034942230; 63180347736716860863; 20741515613442074469; 12159132823812805456; 81464514015045832286; 95707610642343692268; 1729605467271360275; 25269020375706829952; 81355988429909325477; 13469253883670202171] 1587;
SciE false 419 [10592598230900171181; 77584706808037080549; 50145190635970480725; 53290854934393307388; 71435173522815950129; 6091582138887875918; 46755383699944790957; 916510502626852996; 35097002381183505030; 4763466947182185128; 73047003201510003388; 82393837955800357560; 28906556012902657172; 81284630508346531704; 15399001724739945278; 58004202709026094932; 95660098567636217919; 83194638499429072443; 2780958862858355388; 3890746294002298870; 36588919799371216611] 1601;
SciE true 419 [28677988031282661403; 93460594292736440205; 4976815401592150239; 83473608730732622554; 20443773268155354177; 34275045025301252774; 99901854975916017095; 88343772865541413813; 54152336600913481423; 32205619495291064448; 72961998785779727196; 38090399099356125793; 92945639508431141961; 89455587495992761968; 38684384254319033309; 6050192129130758106; 61084725737487430212; 15932539755850256356; 52099894713522637183; 53901651691074529781; 22331864956908661666] 1603;
SciE false 419 [12625080738582521691; 45782734590839046823; 55661670330241967242; 11608413998173043665; 21362066977119648379; 6659963718132696848; 38504803006128604870; 81189015289953942045; 49340741781552727126; 15709301657821174343; 21249366463945225529; 28879710344077881681; 46783460746126971208; 71185667522788838319; 65645869146480878562; 91642573638785852028; 16088877737019639631; 37290688386560681366; 31032234416247064808; 29011143622100272689; 8567252576302361952] 1600;
SciE true 419 [11041029736518855422; 34805762076549911921; 91877681804442850961; 24430465907800837700; 61155008991303055114; 61765008788909684172; 94773031959176489519; 20801049486409190033; 48082551622863421427; 33732256541325601118; 46891079125189486353; 25365233894590112491; 26425406404321187075; 35638409278264943244; 49400709939426090719; 6276453014567632052; 10729854242981154746; 25214914781667126940; 9526996813992128559; 66184930614387358536; 90917352987749627399] 1616;
SciE false 419 [59175383667656565255; 62244047082541081878; 44206675935217932940; 99760141705607824278; 91705262572924161765; 14090389028879233628; 8440838607333818338; 68616150136749845980; 19698403578436691196; 54353793691280386034; 68716299439287569866; 150330636926372373; 42384913941047885996; 28365426087006147420; 22816221954917011640; 51945962525007623490; 84758124197277246845; 51809654685543759650; 41590152650878401675; 92427840115501509697; 40026299041810307243] 1608;
SciE true 419 [13997537137390501522; 29490698638982598154; 63809512043381822899; 408430027653484532; 91108366372922739042; 17077308226151754619; 73959378707345728362; 12387292905892075475; 97548908218582209024; 38800350409886134618; 82789165086645111392; 83160870647719431702; 66529058704377258733; 99576477292555003919; 32428816684206293804; 80645864639422201344; 3726009409592292165; 5972730714197672248; 12869178803482243664; 73784720896310855339; 493259629904865868] 1622;
SciE false 419 [20948879077291069061; 34663599140754468081; 80229272430985662238; 60061241476251590191; 52962962744789330654; 51824216809924282690; 88367519118269519399; 52809228690654047678; 7275366362263883711; 62172921548354829383; 4226296548403635031; 68113936379599086113; 22030419503063659062; 77794699378676585791; 41381979446412061808; 79079230183468220047; 51281417555787388235; 75065111358018717342; 33401416580827748375; 13267439778923155240; 32447961994221284848] 1623;
SciE true 419 [14482406168548204145; 72842838141387960733; 52832936598235332491; 91799932058409273981; 72781197468968190955; 87596424319799597307; 96785270395921851116; 70755727154725869073; 80718050029461129319; 31366857910777446860; 39615399631224063226; 71597857265141568682; 12822488363346104189; 52376040532270613429; 65402384466457222348; 4718776603266585085; 5218034060811280751; 16823292990889271580; 87499314686087060530; 33349409868242026997; 17782185568743884010] 1625;
SciE false 419 [13690604411423092780; 39644495475986308673; 38629090422552437734; 29171408577757496291; 90937693811271645868; 17486826268839695829; 93973168957105561685; 58712191289130591790; 16316427878542190429; 69383104441676447268; 79902081235877086157; 67393713105875997207; 46891769233666475979; 86967392933755654141; 85379858273459355090; 42507568768512415792; 75497605153318203409; 1026611411330479740; 28376716182573103328; 63963514767279927703; 38428120852448805685] 1626;
SciE true 419 [13662383388491402996; 63884859124432893049; 59914514284095445299; 94105525057839523674; 31012872341562624181; 24964242766765093857; 4295659413755540901; 8790194580349690000; 53950570557086915845; 22741126291453629698; 91186232072761911815; 30663856303132815466; 48398734585385160024; 11895198275439014706; 86735686894080158420; 15768633177729092719; 93345254611094645906; 58649409068999026230; 72416765849140477346; 80020302097380031364; 42199537851692042779] 1649;
SciE false 419 [67566751179471432338; 55281625325346956649; 65771012121136572172; 42525064681062406447; 72833354097323036909; 22245918074603740161; 57922483712331142583; 60256276574092816254; 93575900375604928541; 17478368230396713761; 18879445981658923664; 23924879756427786704; 10298334506860429741; 84293390613522973307; 82444273418510567605; 21358990009475381332; 40999887374867754513; 29379207862692387823; 63533143581204870505; 54536962680918246640; 58761979396677604801] 1634;
SciE true 419 [78184211260003413926; 52862970986406595982; 49192337892490018791; 62327769314386015323; 3145251179668266664; 13335100087811128218; 20896518148126489554; 75433208830231139076; 66935420418078842694; 65923160124046503539; 21705885076600728768; 39768709841062283674; 47717241344266574375; 68419539978709264348; 8275685575650693417; 32356033007175769764; 26433734056525554781; 87692088764168764683; 51250271966928249229; 48844715902789962741; 13481523985844154472] 1643;
SciE false 419 [23743545798762944230; 93351336821772948632; 20092402536496896804; 49919262709402716156; 94663265120413269819; 6255671057420308279; 84482350375442630079; 34986186591902369747; 15843866829590874915; 55856607787841345597; 60135843011348825572; 39769840026889049822; 49897407400843778304; 4620560192437828066; 45144841541694478511; 32803058537925784381; 27572799102716174527; 59063815512592663640; 32350708629041728887; 86281957061475898129; 63603362055619981850] 1644;
SciE true 419 [65011533728514781253; 38720740166260990434; 87718558267251906741; 75231751133547307161; 33757023541442346099; 54971512272487163585; 20662362640405115191; 44705153490326925456; 72925061932265332531; 51688780867579168206; 71632798095163966132; 73124979699033987917; 7916261176485195844; 87370585194331146145; 64761653761417726540; 73601795512330655835; 8077888343587901866; 5421193630964411427; 14167516928730941351; 71887135677236824460; 83407794613428710594] 1649;
SciE false 419 [37723545988495997023; 73613335184487054127; 24497838608281683289; 94720183311784832918; 96662213528253688797; 79964089756558204994; 88903571427388614568; 4926139456651954195; 91791625565493729619; 72505577165559046316; 7301561520402259313; 14547793760562285884; 38064187683677060965; 31780287074725891715; 68021560886982764759; 78853518154595612379; 35368558653122246716; 43163460290913455146; 76221773689603129308; 9441150412945321238; 68979634157189191026] 1656;
SciE true 419 [56807271840332616319; 99640950663350879924; 49669349571329681089; 59058347621711296323; 83150765351163890160; 21529235631669466141; 90774144960711023668; 47297536480826888189; 69643085082092038710; 20317921968539297389; 58241172090160994176; 96105329030420211704; 63493728500128751794; 82574299873430686785; 42555874765703660536; 33456590804865872331; 1950194808975483502; 54846498952779301002; 69028568807170077440; 41264600729760917058; 93444943341615620384] 1661;
SciE false 419 [18896849637227452263; 24393415454450039456; 22778183347679785091; 66270681635727556309; 56775596008098680675; 46105546607690624671; 95039336445640617026; 48375561887688902532; 73477319602252302997; 86424289868547030423; 38921556912869188263; 44918540037567460417; 17384216445471007707; 59996376906285754957; 23225172706181654062; 15975520864051109462; 78801141882401586677; 50445772752960574444; 73292734085583538416; 84337840032305124580; 72993253829182819560] 1664;
SciE true 419 [93325527761586441232; 7551592580390932431; 54847876115550997253; 70782974144359128225; 20554903916484056403; 81423502237799359128; 18344043722324947385; 58306698115564313161; 31341257664533141066; 48008431034512714077; 23469940412445047154; 90154059738195001037; 88034776182263073874; 98601194327033644605; 10333204602313891160; 66186204587380908284; 23603166824427613155; 6475492766329555340; 54334990412423892201; 79887597984464659084; 47118312128159191897] 1674;
SciE false 419 [67598652810061615691; 53801200513455892133; 73727153170063974675; 76406020167980415416; 37207738151659429349; 99842154009132438639; 49107025367952669218; 37166172935752416804; 66012162512874557087; 56116138063198243337; 65021898110998970054; 80805990908060128044; 51480225413302913755; 78020211171730976493; 47557939614309419765; 7592539184242671610; 77785676300530620025; 42641671089266383375; 88377226562173073855; 147515854200910515; 9027645890744942553] 1673;
SciE true 419 [26309322653862351314; 90213659225202560683; 88510011139452627550; 70721744483655429892; 55019344626106354558; 19791620128700744471; 89094944903869806919; 16435740423343748461; 91977420599688437089; 68107676340000423282; 61995665801248732817; 98694670387520824747; 64693669468494465158; 25203052014275024596; 74332487503653778311; 91162598509935389093; 17793498094477193785; 72124853577140006393; 49794704577487964846; 53467399683194539145; 73665968318173192568] 1677;
SciE false 419 [25510669684964519367; 16506881857255107996; 20147885951879575171; 81156091412348628063; 80443622075867868993; 80711070458228966789; 28238736624667605339; 29615909894688622013; 29820734188151264163; 15617362003391231071; 23664454000444472626; 82416340787562627765; 86099285127257639908; 40775502273600582114; 62216646030295960166; 29860518563499573977; 96645118949158441370; 95413682894374442012; 63964759986874130481; 79185135471702890542; 50708137815392196272] 1678;
SciE true 419 [17706243710599040267; 49319984875809888108; 41965734005168008076; 18283158501519684778; 44300338675059230499; 72383720189976532316; 82585275972451101511; 25115294335875407523; 28182377105919732733; 71292035382216395040; 8635237223189428131; 55354213175126966877; 28632138694327645716; 77679332020913938584; 4328972463936784562; 90772054313473174852; 23845746332857344323; 59876216766725033731; 72999936475657863958; 92623937164607827489; 27831780793740329990] 1699;
SciE false 419 [13931269251820185982; 68736498340000631133; 20834351148694087408; 15078471240758090884; 30026038270959220981; 95335430248385722828; 996848765560103150; 19051610508085411734; 83452290982099797919; 82535332350201106246; 50342990666085357892; 40159113541868887810; 66502185913552353457; 71511305989696339903; 13261808041411001076; 24276581220792314618; 56481167289300907237; 63365729936396174167; 49388448592460093452; 54831190612285785006; 80324645867302681377] 1687;
SciE true 419 [16379637067384981748; 43409631157265341517; 91607236280324924150; 51251263259287528740; 42417177804965152247; 66152532602844336048; 64064816622754253610; 45136690140661511724; 18224539457037505807; 5725043448434514620; 71384055370451971789; 64072559280005529486; 83536812031733758415; 46854536714807525561; 40328752372579603287; 27282390744421670672; 70598421858210423526; 34466668293394861738; 69293993571648101303; 58346177326342245902; 91533392309419933328] 1692;
SciE false 419 [14709049219382002348; 45020336888108868618; 52639228472759298319; 55156251549794562583; 75992157177736400351; 53206827513472655421; 67952016503518546676; 15634514786491307936; 20109544667315959378; 32412174423335014838; 51358162414956107641; 42756341126286220734; 69559236386458539113; 42607473692564807745; 55601476263041029639; 85417836518286483246; 28334616485017469684; 87864965586480333752; 48759569949565768434; 83485928320152298462; 77346537412585945703] 1705;
SciE true 419 [18771929521891841506; 47500209054408275724; 33169385750352200635; 42775743315451732385; 624296255624855636; 71284124377265750404; 62614386596327717640; 29653425638198370849; 97401838481595200372; 17039531037366298282; 65914319920140639982; 83058115070355584711; 56244356281718304474; 93612749789246245798; 64209786451878800982; 89541077327558415038; 80838997843869626179; 16931365444228786690; 32026353886581252298; 33426864742662447826; 20711437264068709095] 1704;
SciE false 419 [46641097127642069320; 23661521935445234582; 86935528760601791278; 72387482737246756688; 85734646257443023305; 74390367597456984737; 20414831364934429920; 70079181511305108530; 63727342735736517723; 26777137552495984187; 83382071558294317798; 80824935175149056830; 65391105168343034412; 43642616406717504582; 48853955113703381183; 40174543608508555473; 57607089763193751989; 24681853156639830037; 9076895577121364075; 95700537198495602024; 1070750126006295159] 1708;
SciE true 419 [28892983260543867600; 91900470836412038973; 26345301058186570024; 55370797216096598695; 57729939254614776049; 21364711234302069357; 1249838818294167636; 20525538508066470067; 37753078562485734077; 47961578111376576475; 9735641952950956378; 63191575163659530411; 31696243242791036162; 71896037352060136339; 8596304723082416296; 28801145773294790949; 49240536502764347287; 60396140665947339520; 7298322765881386413; 85489050116559614338; 21296725818824951669] 1721;
SciE false 419 [25060784452942278816; 82442983567668244142; 22196440322629571728; 54072443787629922149; 69541238672858309210; 56259511461669755651; 57213299904257996593; 66613937782662379826; 92026176097466408210; 83559932638556245892; 56112489562863761335; 64574096029387535658; 53000842879278223738; 71998682772982240363; 17635240622333818785; 4050047955241833250; 65655054301910184417; 33830749335800095754; 68785112882601937495; 87539645111202681879; 95743391384547560338] 1713;
SciE true 419 [50165234560543824610; 11926306658888238543; 70443933179827978963; 22014627912132957404; 42282139699843297307; 7846364064477573216; 8979049675212165699; 13794521577389829510; 96584108040796332093; 13358777517421121937; 14802355175347781639; 51399245981510987670; 84275199755593646359; 75421661084923616287; 96436508137306997141; 60590166971633953300; 60917731543343542444; 46648829006210638775; 23393091441783923399; 5590589850155605812; 77811008048560851164] 1722;
SciE false 419 [10234369193620506479; 1946006753299383494; 75516332025579886203; 37489401645231692683; 27678522253079813774; 90369160167080657276; 77699660459992257519; 2492730170861138295; 74663202335427473292; 6886273856710060422; 34788950485309123330; 10075392447313711188; 12306596084625894914; 95715268898131921177; 24398458678674484401; 11357080786871468976; 26618732220915877865; 4984601215308992791; 76080758813086261600; 12597736057740108080; 61545982319146844741] 1723;
SciE true 419 [38920537092233898310; 53881322266085187292; 30081748582081232633; 29460756106975793490; 52203017369352365532; 3021179975996149325; 5899400146535248257; 11486625131862778410; 64644845884372316376; 82590047223538077869; 24040017439793273070; 49175346764546869942; 62722633953361720681; 86821974922637876643; 4846886897631825914; 50084610084023350764; 24051660533056591882; 60321897986151830766; 67727751626499069547; 84690904496684304147; 42427163507193368940] 1736;
SciE false 419 [85228794688358910696; 15506751272700302198; 35232529759304536038; 24688132903453929414; 19731675241493713; 51904613060419269728; 60040677353572953365; 57596738587259595597; 19171033185981416848; 15419286287737534841; 12016627775565691796; 43827274925580955060; 41831354766238888806; 40486788548405104639; 23229369248514042103; 3873985779018049034; 49239903958367776062; 52728832539296846850; 39008299165112842516; 63255284465245067045; 13210056361178696716] 1733;
SciE true 419 [80225271849644852758; 49173435392314799558; 2569007139174047498; 56689942958343502124; 67624201255146002919; 86775356246009369876; 87182229532746558519; 60619154116796789947; 3298709672048994173; 62892373141752702216; 84372423602274829054; 79591927560258150246; 61641746807965964230; 62632893218791752052; 72383773324067112327; 85295301568446282957; 49282392871636129088; 66538243956424334195; 36493555479298718702; 62954192971044163106; 78936264464364274854] 1739;
SciE false 419 [30833805514180792841; 35219843848394531396; 24210278755678937327; 15982706338586406154; 36947063383058456077; 83896187422180669962; 71160082763050643724; 10682065218967129275; 52301744837602011868; 92778817167127432384; 25180477007984377494; 43389259539590875016; 90948458572312746754; 33548657881670944041; 64778123760223757238; 56078540326301927135; 70992315776107831190; 53111734962415977960; 60011015437945449514; 64558983538569665982; 62761180370731558474] 1741;
SciE true 419 [34208603993299384966; 53196410549406579570; 64701543511717941255; 75629725708627985491; 21055092455887154439; 34916606574116504515; 2182344319489196930; 49014816094293865326; 60632046169615593083; 31233515001724679916; 37210502484082458427; 37489738168448958380; 58973089656129110897; 72968370786527035462; 34975444840368289325; 28104813901590502918; 68197282464521752114; 96874503627023393072; 21696843142253348642; 51865196270151787751; 54961546500847147876] 1746;
SciE false 419 [14605775146625729884; 77110364223995291291; 86164650717172985937; 86637920137059052108; 69521051235557895931; 43067750893697919461; 11712505670149420829; 2441399900415482037; 30296477035650535516; 32413734779617345237; 46635600307534693601; 80046379660230668819; 35164780100629855791; 40306885029732599175; 45421972359057374479; 53979240599428135912; 21009958607982979837; 40118183636269053008; 72303916892938753899; 52121068040289378392; 61984092223748602884] 1764;
SciE true 419 [67765046825085811411; 54889667726154266081; 96252472570275397762; 44726673789898598229; 48538663685479470371; 74689885892177015794; 73881212307331232883; 68616372154104055884; 96614776974783760157; 61551251499191839359; 78286750825433533990; 83989962246988499500; 70169880694877662859; 53003068621679857483; 73974239189984801915; 31192107945420681558; 9772704492122718765; 58166632811148239521; 82026587111765419038; 30708778930313149073; 72590513916211299426] 1754;
SciE false 419 [19932543163397504401; 48259294190862558671; 38042025322277701630; 51940546706464072309; 30390049352665505620; 88049153757563441397; 6690212890810882507; 34979543004034792584; 38918713287185035973; 88698609524017313000; 13342867892736755636; 39726597719778991354; 3523634787350235948; 3435598062426851885; 28056263738360736328; 8903307896325731633; 96563728452787218194; 47597567104106469346; 84911283904973860277; 59943487786966160820; 12058487680884121236] 1757;
SciE true 419 [18915114187937780068; 15816542700737081633; 56918057416192467859; 18670864328184607802; 7858868491233669456; 52296908218273361616; 68377608863054693441; 71281287511468356017; 88425702579257980374; 23640799473101126753; 11151329569105155830; 89614811898377949329; 49579382583183203651; 57054258102666896246; 55266978332518869028; 24677122947764128187; 7899371813014270158; 49175229695435957458; 74219264244125227363; 97154148926330191373; 78542709189794334126] 1772;
SciE false 419 [12611053222687586372; 21863144130786437436; 77295049627612138078; 10374686731382365097; 44077884700391784977; 53501219072295466558; 20429867902199167171; 19010570835716603496; 77840304397840997074; 48338151447448066160; 26604900466906680887; 31170670380133091686; 84546807702106340082; 95791402933597866532; 18682193528189318801; 64674102674079325942; 40169520092934620269; 46799198316332899071; 49134749494404108578; 22413080177362395499; 63732065050373644222] 1766;
SciE true 419 [18243104738661887254; 57264025685778887933; 83368670429060521971; 58157641126257262491; 11586574725773210697; 9615489924627495522; 90808748829953945518; 87918567582241551668; 49269724418491401224; 25798309556170986299; 24652251740979191563; 72263614283427805489; 71002281045465308441; 16137235069692022011; 62441791760680262602; 1962026025579005841; 65392713328528060009; 66628467639068343422; 63807029512261081166; 66172815817157023611; 88930366816683991916] 1778;
SciE false 419 [56754096249552688923; 19668248170137564640; 73334197074758518291; 15293574934979077861; 10987683598856411850; 79731353775235180662; 85590565868533296059; 64616942428123066189; 81661418768678921755; 10274490279878746189; 19377702892268220709; 17694146489328938285; 29541765295545398933; 91518596606227036721; 8766011367202214723; 29994792234206670041; 40492608594051017488; 73215742181822582162; 58826373478398607379; 73816010428534371094; 53923295892207179116] 1775;
SciE true 419 [52013020022094360151; 91029818686407401105; 86582582327400547262; 53711220329024263560; 25576199199446540086; 85636240107691140959; 14175246034323247607; 2550811540835838028; 29759350151827292226; 66393054035392327334; 67756807614810148767; 42885368623584183289; 83710277630339813464; 85303849067140020885; 33599134638068587789; 49257738439916171134; 48766795379881187509; 32759114747583170890; 32836817862461177217; 95540021965032414191; 36251329292209050817] 1782;
SciE false 419 [52963708572184701456; 53972504054911799220; 2552129355790995618; 80243640134141797164; 30932167046269382169; 80681007462540036883; 2206673489038431437; 94552280777303890686; 79421500814620633108; 48355635810591405172; 76522536288253775983; 59495122194624431898; 68953848683788733780; 45229296609414923169; 60530690711424920483; 58169609219320677859; 37692340486198014175; 60922714278624197674; 10285249377542898954; 92310591233195729449; 95928119138345980893] 1783;
SciE true 419 [32894011610826396939; 23691652417587318579; 47346529973423315168; 75033333073870036508; 41646441480367027592; 5626359093302879762; 81543209748326647452; 97931659872391256658; 61091116285011891731; 97190470918378070993; 85217285609473303187; 8963816057653513055; 1700644989845421652; 10717475452062687648; 87256226670875547026; 32064656727923438794; 90321948622134423946; 49730019645198512016; 91025895679551226782; 70567203266238931578; 18030754007028751873] 1809;
SciE false 419 [38668216512167276452; 58760093096824339058; 46138252556702307162; 6526575455981898821; 71755690529165580032; 10725321081091362276; 9881937386555876539; 24418912593646041110; 38920012725311852342; 24781010902912640576; 71329119138290497528; 1329419932586343860; 931125025369479567; 55791413379918900065; 83244951027771966929; 21921118915671504133; 87572308521526238819; 49584221867777698335; 14747237937718584706; 55453873594123115419; 83360936328098500947] 1793;
SciE true 419 [49881388212973724768; 18841697876663200713; 1505912959244448573; 17786811108243741319; 80961901397406753522; 39947779800740078588; 55522594545101597619; 74785131441923995013; 70584716433270299752; 19465527881241528513; 50702777918800931007; 54214470258927557552; 52684251110688348214; 57863463405736304380; 16189021552725288178; 12917630643114033891; 51156782105204697421; 53213813800733917142; 60461427629551988953; 55919433242330256733; 97900620785256840687] 1803;
SciE false 419 [13108294283532129272; 82011879653701537812; 93849727647281642632; 24334710779099411752; 20119608716324188832; 47622970400006445339; 77673943590030321817; 48211272106324044787; 33403549196487536316; 33600671491070372455; 12214530943433610609; 791226544014729942; 209979079518722437; 27982042127023127632; 67693566968526720560; 23309633931883770287; 3000476640968653045; 12018152678517523927; 27075602859706533868; 40830043371163582074; 9351150654401433619] 1804;
SciE true 419 [15758281404624614301; 26143083400937341631; 32344801651564882140; 23939783016221004850; 32392230321532075924; 23742728663849923882; 76427050838343022593; 31152359145261636998; 53395362137898227965; 89818439768006074871; 39111976519270338007; 77740532676624140743; 48062610063642146367; 18502229416275091970; 14555911616652619082; 13342663613937844683; 96243367163514952773; 44519024018325880841; 36978566099668034736; 40043897898434083755; 55640437808764517574] 1809;
SciE false 419 [16546427593675684524; 41417446490422525264; 22179548826264895525; 20230932595515726256; 72485426344032627273; 33227860050689867379; 38760351659002286218; 12435754866134712483; 67853398228052544721; 14726585177703283260; 14600129975137213395; 94311745175286648705; 84189296586904779436; 22317323607825622552; 38082114707897948447; 89492662859054705542; 84302076102659787937; 71253902948131001981; 47626362962023845477; 14637733814048106698; 95517508169486253173] 1813;
SciE true 419 [42550361654225822162; 51824471968255064206; 75128383045198921582; 67258884063523477617; 13564426977867425842; 74822371559877600279; 43528237037039192187; 10262949759893131395; 58507967920801080538; 40252764439095937373; 48245112071285151954; 43228872055922505761; 73777885158325373060; 53781675777452265939; 43694923253932807788; 85380959365489327025; 29359791488584909505; 35571781411394181074; 47690532133268520521; 88047305970301325585; 75552701330411778892] 1826;
SciE false 419 [11299561218700608453; 41659755122921051083; 24847652560340684506; 88855812143726206253; 45774810458223406345; 65417640895425326500; 30021745706640814910; 65518476702401055226; 9010509299299442267; 15758110551111110119; 4978765062636447957; 75679076555633432773; 32587466854154433100; 48221183882131744474; 61199264236655379275; 79930766043509019925; 59528093704851645674; 45798599059603099077; 95878692208215723536; 48320027707840238503; 21857153135831022019] 1819;
SciE true 419 [65498217656934303230; 27503583817441401786; 79342458908527843415; 91970714550828030990; 63143235757697352951; 23438743273760886346; 98553898829726387345; 38474311143179088843; 49777511445167028787; 9967116064494792049; 57968972300227924552; 88444595653531917961; 2852217376577523529; 80268488105108048930; 8916660455652634738; 89679955220491826250; 8413960754244279951; 51174314124542653291; 48348183303179433041; 8714195226920481879; 4518865618846888677] 1827;
SciE false 419 [10622838122299383118; 95976172313571683418; 92458995400447336123; 30457088291094412223; 94047123864786190920; 87295974560166546265; 53742154158674274776; 21849150599684784102; 95003591995131446817; 97888399200477057650; 28821257919849327817; 9784813143926791359; 78106631128295168173; 28870358620944882692; 86359486622974604218; 51593333421222870693; 68162098118616726610; 92436817800041453823; 1641920323779900907; 58105180725435921405; 72181240538424422250] 1830;
SciE true 419 [10679790867229675453; 60689770026564810665; 84088896931807798555; 17011925975708086989; 1715104286498950331; 50310759330214069548; 86411321174488815353; 66938532645887134392; 83068798473636208077; 55808908158370847307; 52226428690900185368; 83449031920504773380; 15995070737812606639; 70307125150536781813; 93615280251920098976; 16064289544359871542; 81999028189716353367; 44763930690208376036; 87435172799952668981; 38994356523458424446; 8440040028092776867] 1833;
SciE false 419 [65033474476711861097; 65142618286790408797; 85993418122074796793; 19647935613801777009; 9554768497398586021; 82603340092716176309; 55567107235308007992; 70626518341574879203; 6327215222645858462; 74866786695350458153; 27509636969107644864; 89979576991638726170; 99405557555861345947; 77032093149200977526; 60896226843089733328; 11048138212887956184; 18029757992494488763; 97085119344721104244; 39220190874646167406; 22467104515552580688; 60798675579191502134] 1840;
SciE true 419 [12566723336715063906; 68305706767696285987; 40177684369860535967; 11577789156136708578; 72440195557664415587; 88373084637053304214; 82505045218307312767; 79876998053573525287; 33434301559030724955; 31277881404661418360; 97335941628324884000; 37829609211222087977; 67440081449588534424; 40756736286297359542; 37593253234713995275; 83049575809325429776; 36237616162558529881; 16635251334704200305; 44306982398737907708; 7520815280217108863; 91227079088063926208] 1849;
SciE false 419 [96173006351623530214; 40625261120187055857; 64410416870324930778; 68483187531079014597; 13950356087291973251; 41327985416719071817; 27218771164949820692; 36392725896233696168; 64130014156513539721; 95328817307675159308; 25903442490421690468; 20040636768259018488; 9079913353224473321; 1259801802802928617; 15851951321146225914; 51793095527823968242; 10204626083214404801; 23756232277358629866; 63290288506037216953; 8237089931729846506; 4970314404878751857] 1846;
SciE true 419 [24536917084823289507; 97829081809399875878; 78401930373646102430; 49909062896265812907; 54704452423384360213; 75992305229955745881; 1838402695527834757; 10176167183867477622; 11494860432585221879; 89668880878488435757; 25261894792746819303; 12068640214971019078; 187704707258628074; 14634461076356390987; 2222028690562085663; 70408111213151438087; 49569703052740768707; 17986237126004636434; 84968736998662572290; 46740084594722079321; 93953341496648465030] 1854;
SciE false 419 [78149312225652896408; 57436841501791216093; 49678836539938552859; 96083776905833742461; 18154817474846834743; 31648655081487576078; 32295521070383636635; 53334019350887416666; 95877039733110597792; 68571447457197706184; 83548374694306164644; 10919406492070815021; 89819086626163280249; 24430348595528621216; 2418290475905737994; 82376150769695956301; 2889496745833179120; 16317810695392164290; 77554813121644757472; 67905134438605523331; 89206267625688735202] 1860;
SciE true 419 [11753077615380019822; 94860729579551561933; 21596709406110303377; 42369416342311482049; 50050138264879717550; 53601306661453718221; 18882514362545155335; 89034733363485701099; 35825194050795743076; 62793201910672044851; 32643745585506888292; 93947956041717337765; 10117884652757476913; 49680337937137534039; 66570406619539948746; 76783378094084073490; 33816094257188739852; 14299615069799549092; 7343343120448722205; 98524095401654756000; 1158321731419154302] 1870;
SciE false 419 [23287880279774325622; 49816032222304431287; 79929345388854083743; 8762784300446138963; 70402372326139152581; 81241378646511884350; 13893546539495066706; 19784595888357031990; 39444761885077800988; 5366526906151099305; 76857197716221827904; 43484970352323339086; 90093280261900094361; 26947412262127561712; 98212210701927448348; 71653555671954452095; 20614084958693872253; 60378486964052412310; 87698029627302635288; 31371516268336707218; 59297698665209089047] 1863;
SciE true 419 [22125896641358368805; 77189148840916138106; 25292545014011352745; 2212758649232540001; 43003429620606195242; 47764817332104212593; 88554877227039606988; 91493481433222064982; 44490686481052103727; 10248744731028294173; 79749342441728852724; 24504437104111949472; 29140856679707509609; 41262923588885075272; 76995353884102848072; 42584197685011174596; 39318216251770922183; 20023368685002989029; 35486200918173405213; 34957884914353662545; 69279123606743619417] 1880;
SciE false 419 [17784565874484865984; 83438661198097945061; 6559489516538103366; 14312642361298571523; 72689777808545141082; 85455163513393027414; 83479005116557313148; 32020847850572018564; 32771378213201395670; 45987510663600167634; 34317142691245206161; 18414577077433530020; 48265651110584948376; 29074900707649159176; 59653684666771059051; 55127827849876079269; 54560374849799814026; 1066558825223008444; 1331302698675042636; 83564817419688306657; 19508193128666430385] 1872;
SciE true 419 [68185611086897289243; 63835944989190754913; 45934623508089705611; 29550923822539415896; 92174655583239479535; 52607365091691573376; 40690258817081943107; 83019795711835320758; 28480068464871414017; 85910150960356985489; 62783319790990176249; 60037672178728340; 53926193221193766727; 54994527522982900034; 37794418374786316819; 10090345723973678163; 98933919751443916486; 45184188892937405145; 60111946799274074167; 42692865970775492848; 62180342558174199989] 1882;
SciE false 419 [33654092842933733405; 99117879461312222253; 37891574326829533726; 27002000735743317859; 93276126249642215617; 50966524574619616154; 38163693468827652025; 2637394363175428899; 88396304206399325817; 63846072717998952564; 33032957108212960157; 41123612035526215709; 38283399558011219274; 58633337796844235449; 71162784972231315305; 68503018650530117755; 3642404510558565294; 98901833392145047183; 32409596087515724667; 90221562049411136686; 27553593796219078546] 1895;
SciE true 419 [19311911833947670434; 28167094959598536368; 45439314971570425784; 9224527471351058137; 98505368523258921750; 60529118255566654908; 25451565496681358106; 21445209468586110968; 94560971555178472829; 72584466663322208424; 61425068794419650871; 40090354285760680361; 29863857998801199056; 14636769584810351034; 97594611340439619540; 64233438112170841048; 34115252139733175172; 50477646614428630812; 66208615884283874847; 27006322933386635032; 74742690813688749337] 1886;
SciE false 419 [10858366871058731744; 12227563856975361883; 24308408525302528324; 83932616209812503118; 45339146110094276835; 93535165187766511522; 8051057435274992941; 53923973274301816467; 11092781504746111461; 94454323688183617434; 24307727921236293804; 76059486970147485480; 79629491085328827904; 70937077406863739361; 50145851294727331212; 34827537854690721553; 20024585952296561088; 22833354520221746716; 31670157441036844449; 33899765154841152754; 67331511273201027303] 1890;
SciE true 419 [11130650730842618315; 92128299008192661808; 55138404621291281044; 47688325730717312879; 81009819297020293748; 63502403672441436135; 79636361359607465111; 80234754726791886550; 87175065920997932275; 28987879210427949298; 2762786072710727442; 42429819734795465599; 29500878993686213048; 39414524789376506798; 4593652617807857444; 40915785780855952643; 40421214201075421875; 33713254735955788660; 79132894658609544668; 61257985841846050230; 79290702363810922619] 1908;
SciE false 419 [40796220307528875118; 17417933571660343568; 31615370120376949396; 56463103859020874601; 44850098282950942057; 3627778707103561549; 78318195924876785903; 16002572861075089599; 16289572602497265589; 95692349141534657975; 87306199011823613367; 33017469949021828323; 47795698631398125065; 61793129251434355279; 57063568982734119257; 76227064424371150737; 23058158265866454268; 80854790292080941727; 95698090235546241628; 77486585524376015970; 3199460493095320509] 1900;
SciE true 419 [15410829308568929056; 22637181963407085750; 71682985140130470112; 8294359478187735177; 14244719107035060963; 80517279096968997515; 99859840001172016810; 57068980625441502059; 75377812892373698538; 9701317998168694253; 84504725026386405620; 71776729652334504623; 89528843158373397999; 62431433079438985497; 87158118640162002021; 40428089054857350189; 63944893919752545626; 88902469786307731862; 82079104285476636556; 24244073344699202869; 91117096821053904673] 1910;
SciE false 419 [99593094913403040075; 17880309687161772761; 80785774940645714909; 63581467449088556013; 83680411000633537620; 99005544526836161064; 5922606437158353518; 13177551246802647168; 5597307245377599916; 73583294198711866256; 62222019368353855614; 15797268978480042742; 93315526704059722879; 19350674870360925694; 14377589311982704594; 77039742754504984966; 745903914715498772; 97258388683075796624; 51809773022747458286; 84397744826423048092; 11416500047968792462] 1912;
SciE true 419 [29263581751766087120; 85404453087276305109; 78512264455379876643; 85330164551305127230; 11475296120723950127; 17439562891128278757; 67965946403527292221; 47510619984960570471; 90527921647852683123; 55802701478892518474; 4325799280426349783; 2083824978805273573; 44188460110318881649; 9174616006753034380; 80051534187403585700; 7786929130882770450; 10801003875272718175; 24252488840346831536; 78224655340561740344; 59518179544016368260; 32714146904755768511] 1914;
SciE false 419 [48170887401237754341; 6240907949142993376; 31772445205059503763; 90884725653664689510; 2175457528135811829; 43236927158164469376; 97694386711931107317; 37046309459788015147; 84796983886726278722; 36350994438044595558; 69617040820216944724; 32528856089264997152; 38411630852957465044; 6439256962306213284; 97125456034513359529; 13846832417600774487; 294094191092235226; 13436580911872662301; 38306836466494602907; 65002592846183436342; 68754056937951282264] 1918;
SciE true 419 [14585610869373031794; 63039819758740851907; 42327036021432142879; 69031927187614698849; 57987701450457315103; 72741593919091041146; 46543033388369569624; 5372133553860335387; 67249250600086132683; 72980117986381969900; 9812708130427560381; 32676711398191365434; 81611542075857380928; 21869679066237349038; 45727705340794754952; 45736825040223087659; 86303726135809679509; 59403735674597341474; 97644566705879285373; 44563406704550615106; 36423347060859019985] 1929;
SciE false 419 [53392089990078724039; 6940791822769117775; 12119161470935648992; 87055936467889182164; 15020588674636406773; 49124422240632432285; 35211026456674812149; 35447812277017636395; 17075352809650031579; 45618192948243015099; 54283286621202351634; 46451072663463319016; 7034041096044547431; 68203847031138427177; 66383268409625038633; 31050120149994120760; 20115192136953368498; 63115199646949304269; 78970928232752850082; 31685707013530188298; 79402635298453170651] 1926;
SciE true 419 [32276018916405359956; 62430345253497794267; 45953238492129242966; 11143635617999996418; 69069905851925489172; 91614267169427146621; 34962916285740925714; 33743715458486177463; 44702003893510962209; 39567388308375878743; 77539569398622728897; 82110304028577314998; 7306712828210786085; 51863529917012256943; 33513460742051530951; 69489707884313113293; 53821072775058096620; 59839096198650342971; 68185707837340222204; 57951690581395189774; 10759082725077195489] 1934;
SciE false 419 [10354890502432049736; 89307494182058303271; 80382562181865306923; 50443832127952367505; 52442936174044338834; 49622425437763528723; 11549707179336467821; 86808344720560673556; 17988795878454891575; 22632470544813627785; 56867909135493459045; 16935414126339936149; 82319470407457329984; 63822529431064777285; 37054740013436381680; 72961088777633440648; 42915611322611626156; 12028250914256450546; 78299035108410136146; 58341614699761275781; 19134388990568656821] 1938;
SciE true 419 [60364836048989954271; 20713216607272549006; 92604044544457084109; 53141818891140336265; 17593820452465620718; 48070500977760487196; 30739279124172781686; 29301625749852865223; 89253535920574389584; 31540813768445489906; 31923658400836622874; 7273035081790179060; 18527738098623875435; 65414405577058400488; 78183898764608007687; 89960284367264078557; 64392271414436701512; 16152359149261521735; 48535229622270013464; 79168903076625114300; 22573222609721864678] 1939;
SciE false 419 [81661355504058324091; 97813469376569733033; 91140709968859750824; 87817121979223977039; 5613193607886192111; 37922745692585814763; 1784522188203291350; 87982685172183484405; 14819768976827300661; 86736067979966893583; 10770166182862271496; 86881488648922062322; 20092494939932342442; 77103092761888507814; 33752996501096590231; 42415699314264950772; 21063004447084614404; 89345015047957062694; 87123005844107403129; 55000048344194194957; 27715048785621487296] 1944;
SciE true 419 [60367542048356485040; 44124537534362219190; 64797333922245518128; 13666518064891458664; 57406751914213639430; 88095210813961744440; 52431978296890280039; 76134361866632704616; 86037568087995687363; 74610672778753759863; 96010085040511959732; 80834972169349305985; 38503012225422103037; 3814822663359955390; 68089053148107268173; 6709785514969429268; 38803183724001349780; 66671946288829522906; 74542706400174843304; 53645097557264466933; 80875276006700361706] 1970;
SciE false 419 [31050416496353850245; 94489909503335949662; 45819920566999717706; 44975396012905065737; 28259638424987649664; 92068450127471954379; 14977222596615007157; 71693331830681708905; 22974084427548833962; 54409249620813140221; 70259310281138183890; 4726661944803516272; 37722970974633132701; 21961435914475675019; 62719428164601663544; 31583935853264553443; 1528707551202356291; 81359764707363202693; 55654377642531777367; 28727638126165579751; 97914674888366467436] 1952;
SciE true 419 [46167402047839543718; 85910409712252158889; 25454938513934307677; 6407409901476663349; 42282641194269721632; 90269971051317328241; 3484563670137984384; 87564293176312364492; 25058585844467493642; 1521445171192407476; 6249077040585429638; 29364593105061479021; 81540341771019473898; 64385139310070505386; 5636379450736487594; 64086715696187834385; 60228132254565026102; 91560445826313820804; 94156500250059429659; 89837244337252809911; 81609473544399014979] 1957;
SciE false 419 [20969730205751629346; 84082857477055054153; 2663300046686770077; 28507443765038239932; 51255689603154840134; 46451344326135326304; 7585846997334802700; 33899914960055906618; 80357674842713575238; 16910095772319434813; 40429819747643097939; 7031276273165341850; 25192467943550870177; 38385931804661354966; 27427639333507055080; 89402740924439369099; 1289332804525888674; 73295277728039098892; 28931511687932030826; 3176704632790974629; 1818141962667216000] 1965;
SciE true 419 [96139853148629582101; 43165876826499910702; 55328262757823144335; 74088930494263004607; 91687021924493944673; 51093109695194119426; 67706331274840570334; 96186025957635695151; 88555066398462486021; 19319970259722930278; 36743464418038229415; 27751483283164789071; 35464924251018363483; 63836376788724424741; 99421723302734406069; 42651647955274613715; 97651616487051968733; 79552225343054766833; 74922630077756637147; 58070833928922215171; 41008744041810354054] 1969;
SciE false 419 [29790379674345277468; 6597629265138461762; 93385290863209213796; 99783930875150160465; 21381256247460800364; 38138873769138384281; 1692769550960367992; 30134905152840236548; 21859854516085008095; 73347460484212702835; 42168756318725230982; 73777649186022482273; 30980420851228640634; 48209748498470944012; 16377548445520829746; 65351498582811381750; 48085006325001174676; 66459831259135597533; 641805040925639416; 61323060308875628464; 11090347106465185936] 1974;
SciE true 419 [16704527910906801018; 41114040360756244516; 23297718596479198171; 24822710590472738005; 23604894892495467685; 13735441044004515967; 56509026287498140950; 23120913600501882058; 68781811489293682428; 31740249710296790989; 21537150840877769156; 862374393763886350; 91416976422439102118; 30466110356262244603; 9551149389955749222; 85331572032616029531; 62541723228056220723; 5976701044925248983; 52080635113940561046; 43724403504421357694; 12164315459071647079] 1992;
SciE false 419 [22689451746707370560; 48029138750404772170; 56367126991909396953; 34418057842082933842; 13061143808461764256; 1023112024121230395; 19339736426443980110; 46754898800993016841; 59512567807971743710; 286942448568381226; 50826036520272058513; 85916088173940060371; 15231221083827708660; 47314471614725896329; 49632188160351736950; 64635447700142101979; 32424016599325631856; 9901052777806072415; 30426988685706155925; 10731804143261072822; 45371805067582884264] 1979;
SciE true 419 [37832546149844240902; 92555217827606534532; 48490348621573825743; 59159121208466651292; 82125533095439417297; 50796793002036874317; 33505944628838886770; 43922931265777666343; 17347824959564811744; 63933599169947218805; 17368381756321072171; 58473150617492108344; 76792084720845866420; 53793692215699764975; 28972811368605719018; 13941452469735311308; 16284572403895862120; 72837998890815474125; 56498270913904858744; 76548161587981844638; 49802753527468427073] 1987;
SciE false 419 [10272020437252852771; 76476800583667808557; 134691426567311742; 85768168159944055992; 23187967092065527165; 90377663327374171741; 13538357185419031697; 29725963157813191491; 54999737126032125767; 42974607945557854228; 42184467539493438395; 10815955810524635762; 69893908869403479035; 22291038037988458597; 59637801899164338971; 8466783126607353741; 59968913207309570959; 2386419530740662895; 25161302470845389840; 82768011673940907086; 50037055215605780844] 1993;
SciE true 419 [82334283359721662100; 65480351154289781363; 51144640832903105031; 45107363609020134747; 80287281958369482855; 42660184398738721879; 96322569020597442464; 74981782693991559697; 7502616904948200254; 2377272935579822647; 35194991865595786806; 26388286080337465489; 17129957152223850781; 44485446443410444412; 98782530746824848053; 27507081825123123896; 93177281154423705949; 98886779365499462304; 31194797143148736044; 23279615196089340454; 4709782118728154928] 1997;
SciE false 419 [12888593049855952324; 2098491221194013368; 68901844284235105438; 43239980346146617107; 47271062437586398387; 48902348655048886060; 26022164105475225074; 34720642659345273272; 58914669461079679202; 9267504386589608827; 97533164742154728181; 5765211851268120560; 26453076166696265023; 4579953272971293300; 69710160894013380390; 23861374537972380391; 61687389106996207581; 98239936123045770947; 15229277147329278509; 49061890415954666857; 1948486716809878614] 2002;
SciE true 419 [85509739153161574453; 62550586854291288611; 59312741278439575217; 43839904473358655649; 25177751208170110342; 49860219071025561652; 81171089040451344094; 39624580021104477161; 39055458441751779701; 56645801579294073386; 65130219997124764826; 96020676547297536544; 11215456154493855953; 91711060292756508371; 69754740856869176548; 53447437159800662659; 83085130045388333053; 29825898050961255321; 9756850380246136050; 69965639553664509313; 33106848844240539274] 2011;
SciE false 419 [18911261701401682755; 18956694428851680372; 77367693867966464951; 33563340811760961233; 59600175932722601580; 89868698178976512116; 16776255495314777105; 60110158699816513121; 22759713236971517874; 27794203708426759355; 12735346855220077796; 76326553887122653672; 40342471122319107144; 15973316812440365758; 22580718664244370384; 83953629546980170517; 82327897155249529990; 2499382267301469453; 94735641283863708655; 64238325496170606013; 19200923913475557785] 2006;
SciE true 419 [32579896450680448922; 57823604033479853884; 22363826946147350995; 44797072627894701048; 72247897137637518200; 69719347837810236538; 61321072789267402343; 99182527167854279860; 330554453937977267; 2802126533235615991; 50912421665676493333; 49490791871679179995; 5912133843565937829; 79664821960245569585; 38985646728579983660; 45492288551181381949; 10590017092022096922; 41312710449106968791; 6452236817175690915; 55017692907816701977; 91886478104124150335] 2014;
SciE false 419 [97521465597619285334; 824595882983832418; 64219909771676622786; 51972339153144316497; 26682634260641210384; 46402790077295565704; 11547306142084389961; 2025645393554517177; 21876090921067692458; 47930337839606271736; 1142933123009663113; 18510391433965607719; 24317257481584811642; 49228839819292966926; 8897533836939878407; 79692614299573951780; 98577265020619258729; 59195073337749441692; 66167208901072196797; 5191501245351841952; 90856547125985600612] 2020;
SciE true 419 [15967144160337860702; 89528419667895217713; 32768302037665258073; 88744979880382696456; 47479132577787638061; 91954459758653456796; 94113372365039984764; 90169545793603410822; 51444386352829332790; 54777038502188467553; 27776939211088361802; 91953393956271986504; 50639215363233358644; 43389544069094193357; 33525743159150606094; 7060858532938403320; 12673110542260143175; 88151968396443315541; 17362054035076823672; 208113566537986310; 15517496798148063237] 2023;
SciE false 419 [18006224695788734304; 10205647524915421801; 3424484892581091306; 17085854598423517207; 63059332126347499580; 49843231455292778014; 40192418120962567408; 54749309731377373841; 75534736979405325891; 42636858658483679380; 92392311619119993099; 14141413276397194195; 91979124918185661888; 72972064265682288785; 76231766538514914247; 96938119813224985765; 9774644952564821772; 7795801695472000398; 77020550481473764672; 78309468392259502452; 25799184321371240269] 2024;
SciE true 419 [75636376880749212582; 487238947520635682; 67297938531982072827; 59729497452300534731; 41264662714913763770; 387360863514368065; 58692651530764836235; 26975934561840983362; 47451810005154383331; 97378562656504209807; 92172512100105383818; 89833958866441460153; 76271935265426853457; 12318825341392005501; 29071478658077663558; 26201608444693855055; 61315558247463805190; 25040319504712332589; 76347570063776619528; 17415612147134088649; 77009430628947746656] 2039;
SciE false 419 [17953008252913179014; 72065533877691462435; 70246585691236564248; 830134238549071239; 24746420452898504234; 52025422741612516220; 36028140588560771935; 87420300424189507334; 14127933580466501129; 51090417222170544145; 43823239199699776533; 53358761703994618761; 97444970322973559805; 63734474468058549915; 14546583677992893245; 76759452177118461349; 25782966893465837509; 56032035847563009219; 37009636037872925880; 46315699922185104786; 13869762941813095667] 2033;
SciE true 419 [14284405839949993769; 81898835203667654541; 64366706600056203608; 95789392190798855097; 2702832424309168310; 47886732662596129486; 26347931189464570535; 77252539759954657797; 80980422998274255704; 88861967367722076115; 68308163155763582522; 30845383636582878928; 55965083063676480309; 20979951160913778486; 6965843246156475241; 15511937400285211855; 13517078121346153106; 65785564305662087402; 13384958317417320755; 23666089248596811268; 95392023745682039348] 2050;
SciE false 419 [22655935286444221176; 1616377580912669843; 91147888247365729965; 81895787857363784491; 1155436977816187384; 12548304273648089245; 54389140827434690588; 72816834383016909261; 81079863448369989949; 71823161044477608423; 12288918860736571047; 46911056658736260281; 7551155697904083874; 45595033933048601229; 29596473954867512364; 40810662220628765791; 9097057754476273119; 79125811189687395018; 62740814019065620454; 33511371150147406099; 82534774361515785782] 2051;
SciE true 419 [16342897834343603555; 22087734602046906464; 55113139074871977830; 17189622049385229301; 71499990512734653031; 74065014637199155407; 94097828474493690119; 38105948847800988159; 77905575290027828614; 91092081446498653925; 31746871107400795170; 98358130769449201776; 57229833511489003622; 36521473471084137201; 99998412568453537542; 46246473451420369785; 41023052706904809191; 98441411097170691779; 83727419444354720423; 64924989491699197025; 54723049007630552418] 2050;
SciE false 419 [18628669718116790788; 63416816860408003452; 89003544107544575864; 34322196226370028274; 14861956415580859421; 3714039786689884232; 60125871588525723292; 95821698761180618758; 36271452804052536399; 28764744398702990195; 72704898162216527524; 70846804511794534649; 53855442914450466456; 38513152526958782140; 45711523120607826424; 59421305506912596180; 58918329624611861099; 34604922957147511195; 46694345880766385538; 3567965766455470574; 55153021043530392246] 2051;
SciE true 419 [87206106296305793893; 63760444955624712358; 83718162007886095076; 86221987492383202372; 62517974832997399723; 84436599018975333875; 55400167485487973918; 83946458762440869883; 94303163233071735560; 95434450015936593689; 8992150686819376225; 53794473494759321275; 10853418105246806147; 2919230514499018209; 55167138032468574022; 37895887479081679701; 67903319980010293849; 40177480547160181197; 6113143893768246003; 3897725327023645299; 52413962756877611401] 2063;
SciE false 419 [48404564027723798089; 55410614724632570497; 48184960574617205882; 47484057820827443101; 23338913598527257652; 72459211684452028986; 56215830272763783676; 28392040733484201612; 70635771082859126937; 12092827206213437893; 95093789819214341495; 82115162867572339142; 4512047061617573426; 13317906086433947277; 38860416614371723487; 38685319801869713980; 1569291652074552600; 25143414796084386624; 40952704837068067552; 21044100552935334255; 65787760846293892656] 2063;
SciE true 419 [31433089557014967951; 4812969640817654835; 21905816011049618483; 12011291928962102874; 78896174440897974092; 55030719879817213537; 47866506671436216990; 42657720003938776801; 99700800824037486394; 83247565673702838915; 44698147574047767876; 96838608405650494928; 54460963314562391970; 66022457994539469422; 71688386021946296131; 65232512975308290501; 57674419867559179388; 16679241980258257834; 24760351539316690312; 35204610313089342090; 83250850643240925095] 2065;
SciE false 419 [91801742599021895565; 50262268093531616768; 84510002560111555895; 63801088725030499521; 37218652925951169423; 40946576218802096960; 99219866558144961925; 33175462665377907382; 86696223197487436360; 35885445176715423778; 5390309444361133354; 55786378507833745490; 374206102988407140; 19619270315438942928; 47577101995019452226; 17809804064225174754; 99448777905373602387; 25533028015587983511; 28584511401473431075; 77505187517844723611; 90248509891154474506] 2079;
SciE true 419 [32318109014675834545; 4675271624744688117; 55757593838163265667; 90543935052179465039; 31584576281418784114; 34930650669502106869; 6636614317400254806; 12844328054290705777; 88545175796509480475; 80682077673820769858; 97743237032749359712; 52110035326505139370; 82989389198052789502; 93850373010721433604; 56402517334096672260; 31650342426130111130; 91073306562252761720; 93083606123333633158; 26874280555664073379; 39655219175892583003; 74571634873421581410] 2078;
SciE false 419 [21900687055626961992; 81875226751330610973; 30452575030216764631; 71769509944824565138; 5941512735600540245; 1402543923319830350; 82667172327256542688; 91613659415341867118; 77901498685052185361; 38239444840980058541; 14604528685817596795; 48203878963645907423; 3413767636471683091; 36607744243791960520; 86530112090558688997; 49465590143888736393; 78041021973269804352; 60108646725719202797; 83655000785814946818; 59417592904075366534; 58151913253766626496] 2078;
SciE true 419 [17026569155770790201; 80581516168150189172; 66626634838882711961; 81939421084056796363; 18631426727592152489; 68439324002050982010; 78439513037971624774; 72022718638265115864; 30574865608702949406; 49507038404435429987; 70451581046306612668; 80689957599641919386; 13549026748349738274; 81898088979048812314; 46660182001604446034; 84784783629625137812; 2661708188247746753; 15127917895957624975; 30742505739375307205; 31667281751791454866; 1150230920043747901] 2097;
SciE false 419 [23774894026309998596; 99386402313582459690; 14231330847016447782; 70123148438221641358; 95317475576531122554; 69537013114868244543; 62781366754388510713; 71411114276042824914; 15811735898394730688; 20678753226896381766; 70386099102699032605; 99567435379990368339; 60616816354009601327; 54334870436296790079; 2184470637678889183; 40295749375411621508; 63621553241532347668; 24453562955280810554; 22311651589720950275; 9726242867656824774; 63492430214807167761] 2087;
SciE true 419 [42716417695193675276; 90835509592888303613; 8988898031911964561; 75246182854986208914; 41730580442313460065; 43866127682261513166; 92828721216801748834; 1079060364070099193; 29091385747793323786; 31870752042570900981; 73474717877800600439; 40288353779193583096; 93222994354318251770; 50420609870776554504; 849712773968211439; 1446111741893417072; 89918409182666514638; 99885046106824342582; 76234105070770516668; 45077047084979337830; 70630411425000039699] 2097;
SciE false 419 [70171100798178377545; 46128263190288174505; 36783843355458008882; 48895089670967063523; 61897425583950372943; 66396680413458335195; 84121384911648280755; 94208638995442206065; 56977264734810811545; 33874408995999191087; 51084734012560402780; 2784451605861960403; 10453473270735426013; 21331564423494357605; 100609132189227522; 44660061835854607287; 96629858001728934550; 96382299133992540022; 55808977948417884755; 73225701797432587749; 83755252431016872307] 2099;
SciE true 419 [10506380843165625873; 15873990138091995527; 83160529474150916584; 7409250955591381032; 24547276426898905758; 30847520621894580078; 23543769393507946014; 8419649584528594316; 61892334944733311099; 44477502217308579472; 87557496435021570445; 59963419413775121514; 18147017105663652668; 8194966142023830162; 52874118483174480440; 23861845822362208802; 1553414679323909033; 50166726150873428242; 99436778400827993589; 38278478869421092340; 32929579298601495455] 2105;
SciE false 419 [17387255813834161171; 67914558967830906269; 73745004805185597729; 34613556839227080499; 31440505652689130643; 84769298184267605442; 88657083239414687353; 73205913045801731456; 84761401372056205434; 57301218271678133464; 40324145906171536607; 15001692439129611767; 83200707882511827390; 76875974624627967463; 18131324767986312632; 12721114315892162047; 10698123303163301838; 45210818930319424163; 87414073148535322975; 84901858662155094531; 7555093582138670306] 2111;
SciE true 419 [48518337368420513082; 65959827399966558206; 75853071445439411735; 63845255162264916337; 34248569346606339185; 23987660306849660847; 56490125815145617573; 10079148483545465457; 24534352190377804379; 43683519211309697403; 99427646903265843487; 79280036572914940732; 64461018015355559710; 59858769819422356270; 46751128514367135547; 93605180683057197311; 35286697275239606048; 83339049067586909456; 35299356690709923563; 60351393295987928000; 44458226638926839865] 2128;
SciE false 419 [33075667884870247547; 2940423388233757920; 28262578318375296813; 17058809786007055322; 93508851237126145305; 4006537312691479852; 83720123525077743320; 80210073962271357472; 89713818508624302584; 10687557418285282032; 44738242785990945803; 21528700292297233422; 38241651663960000850; 4365059908297987550; 33716458936708986900; 19612765144666827590; 57671060736326415470; 61723990732988715654; 19243112513854074838; 72652480500113111616; 37330207491661034672] 2114;
SciE true 419 [55931788716940208656; 42856426247216381867; 99925865567601201301; 8833720618304861868; 10215338719188840650; 53859160124594639985; 39289788431346223278; 14025894158020134724; 59030339930345354420; 53511241839557799721; 89250642826683034957; 4311759861317389326; 5425609260019615248; 66528325384750567784; 9446535886326603872; 91782870386984907648; 86131773570393387641; 30377738606862862802; 94413944146586151476; 60104346606403289751; 40781210846410143667] 2119;
SciE false 419 [26574733975047810497; 65481438566359529793; 46300823490152119712; 58269861311484784530; 83876899041684177221; 93671735914884732364; 62802746396370287979; 82366099101782887782; 13316051319819459943; 49373880551986891050; 26879896978330017991; 42706313044366346281; 60128194422207513803; 26986440853228110723; 57097275747064898111; 83034500121125452830; 61411906862917199470; 18439410333990743445; 93291500847723407031; 22330093406473077528; 77951713590638811857] 2124;
SciE true 419 [40078093403472410372; 67252430610271021159; 8817201498711432557; 85870590827616953299; 82183659952397370435; 65573824687067786485; 59958885902802002537; 7838347782783968550; 11269123067480529059; 84694604319954293306; 1709202024244880026; 59525941758815412689; 66872840154964054761; 23545918314435705258; 87223331786900484360; 69323452778646123227; 66467799196826164049; 58520650319472828191; 35168995129282026822; 94522220080073007436; 98863199603559565932] 2135;
SciE false 419 [85807919294276576015; 49923700305607777742; 26609973148870046703; 98797783667393031625; 58875453036075347215; 22407109765523871802; 94421432460837736985; 36596665015312929122; 55074710877761382057; 12936689069652921875; 49455981743717729302; 68914894862665551745; 4829557549104559678; 79568421259473392860; 22916216372209132539; 94394725740938924811; 64366032190284104785; 14855507638291935017; 19156237880165605116; 54909706633017108686; 7995963328072484770] 2137;
SciE true 419 [26814218352048156536; 68433089661364097631; 43931342308054621442; 91779435808274377195; 22992863204507334446; 28829210867908015212; 8094685907358126372; 32535030119245398756; 88527347638623234195; 15572204414776024395; 45346539650406226882; 60250212728681354817; 91287178949162036105; 83204934626303068734; 30027612143661430513; 94634587634177939837; 80679235309937019719; 54390918224360752778; 45493101238339152456; 82961390330313922691; 67345529146114482707] 2142;
SciE false 419 [12828636405899402872; 42507055607444766773; 48153754105090987910; 98251559299876604563; 3572995052795636295; 58411387780875735584; 75544635637616095234; 31057341765627405805; 4471125834083898401; 45442421851313161985; 65568977751449381352; 47238890619758642687; 23985632937985535428; 55434330932952836753; 30959043117497266222; 94880893428851137476; 26507121983295932468; 9653877276740163023; 82993010494990939893; 33553697969649560372; 67908823489761322695] 2145;
SciE true 419 [44823874225242905725; 23602481495740480273; 95293409793822946596; 96098147234151376302; 33086168379201972117; 52322227951798395777; 95094734064291622601; 37265051042068375035; 51142732470207121741; 28901899551951964639; 52594293771545912483; 67707430488616974717; 63335707648794702942; 66797992760741670308; 95844063610019828855; 81557957784976896334; 72237657432656112545; 61102846405060401432; 52829219446412420977; 76969905542758882006; 48475813345865217383] 2150;
SciE false 419 [34270842647421060442; 22342385365840928789; 75905805380044379721; 96859519343718456636; 89351582478490128209; 69355177804295246487; 80028794621289017849; 76501637395430548380; 71965133739201627552; 45002203273211740090; 59200915907708791545; 21575234754129595181; 29969936219217753486; 70206805519197014718; 38631583426360978590; 5968700439779724827; 11896461153483089539; 8743751369776887992; 75764157482863926815; 49912835141481531074; 38949403115815794738] 2162;
SciE true 419 [63620394326418111079; 28041232019023231566; 26113066206215151458; 23623080322677361886; 12338812077257688165; 51983618838668229849; 71579043055293862966; 27045698484842376585; 65419800062874479428; 55754694638029733797; 72295365853420606214; 86772971110955038625; 42985410063484845018; 62922395982225241966; 97499563020081148623; 33801579404555352073; 15997997365939088051; 53329939574037957280; 25676507298989413178; 26135491580952137126; 6205405175328273828] 2158;
SciE false 419 [75612678595964304287; 44269444630132012559; 40236067567972452960; 58710533255693694434; 11239086881854008364; 13147168003828361627; 46487484743059721686; 25914027169559036377; 34313293697925822084; 62979829309491582249; 50943809458938234073; 6195055645169237836; 23720148740950677331; 7299876953022049755; 79078806573452685714; 8841111326990170210; 61124564250435240504; 86413394566182698787; 99852200557645183659; 1106608692660465121; 97771064032509695628] 2159;
SciE true 419 [29581769670579237596; 66442807622278748174; 40864737022836221977; 74332244503470107525; 11916347301703112534; 74997840021977760329; 13015780019400024592; 67739464202608541060; 27526678509070954588; 97154686099982196482; 14754517704786003635; 26474012891120797856; 73470581265542310848; 12373939935900414456; 70236205091469188374; 47560027554644264915; 24446864575253543958; 83096752086535121849; 66833637084977976410; 15825801872574686757; 67491828249300804595] 2172;
SciE false 419 [92948437075395956923; 20082756042376368311; 74684519417905746003; 44610424311755224978; 94517508825551991812; 56187924199396609652; 99380604108461512709; 68043620520662146163; 79287300424163758390; 42589685881797314669; 3434685922029357499; 84169693223088021879; 86085058911327462685; 59516320818660093757; 80532428060823899703; 7418948436331406522; 86421085251808696787; 58852026218451639711; 92557069956596817162; 83458319777389676328; 45118623348834264599] 2168;
SciE true 419 [21276037852861541093; 44311557749686589120; 46357139457243082764; 67445214888019038528; 31108915987092092762; 94780416742608233793; 3937552257892031924; 16242530932181420249; 36556812249699610142; 1582205574309734676; 5962845092853725607; 25245542317994033723; 80613512134908250117; 52148002834144245888; 21362877732014367427; 53499720014526663425; 59508097642602096947; 80286641037825700022; 25615166341911591427; 87652611062566427364; 55271101420570435361] 2178;
SciE false 419 [81074418920499988126; 62112930489982872964; 89713863897997618518; 99454083841480187464; 51605132575234648571; 83907110395764736465; 53123340003593902845; 91708968328604677984; 6615209583519650692; 5790220262380310640; 6334511874916334759; 81728964295141671453; 46539615452468779408; 45069216945752419539; 52864345232647411154; 31387448865961769678; 96259107631172236702; 63945704305651343273; 22121646246220816915; 89549977555058898635; 45104611150960566409] 2178;
SciE true 419 [30861881717948672858; 30773793726341106740; 82546473249419425488; 6960193047323035990; 72759791617745974362; 87966042356891609776; 3455232243036844788; 50583657202602579803; 68558327274006074037; 55544664768581782541; 80102833208519621413; 15812483798408249534; 13171424269438022525; 69892443176193669503; 37448578075628422186; 34641990402417570879; 5273923481337167777; 50928352511837550369; 96657063762141047794; 31837975898561234937; 22086047360453357758] 2189;
SciE false 419 [17364270256845725003; 26721979359640438646; 4048164292853535199; 23895894962719421778; 40371674188215279209; 20676077798521807518; 52760740596264081415; 9146785699287357519; 13335303515975117328; 74610435195487921513; 4595921805358923514; 92968062825493441902; 27243931008518033561; 16774058899633286544; 85762402336487865908; 72094467516657397491; 70161426299109320833; 57483384133478859470; 94094939222971898130; 85748895526120646989; 53320761993743312368] 2190;
SciE true 419 [22179547522104639987; 61396197854789629773; 71695861212114086214; 8054914340471388096; 49333400467610075619; 31992109122318444002; 79002644895953284502; 34144368849349712248; 73046104726272740872; 99059696697060874221; 56060247689619362062; 72392799271289242012; 2539859073559392063; 37202839359538932270; 82168313782323808028; 56374643276147382380; 27288997069549865353; 88654870106482401839; 37568497225162196836; 15547037665621178042; 34787384201317558825] 2207;
SciE false 419 [34956766582076398367; 83667703084108406771; 48227414748775645712; 76799605770847454210; 29004312630881845309; 59437270534670791860; 19329413109214623414; 39466440904279110645; 19871975560162574011; 57037083309858807114; 63787134167355773068; 47066673896923790643; 32385675032183570148; 85792112399197228135; 8768295437590120086; 89990292514502639971; 87549581100651383642; 44555721810900004723; 28262424272096430638; 10667523997433267295; 33823667931206433173] 2201;
SciE true 419 [40171777441646831898; 32057794513927404490; 4133686295167991833; 77669832004194148341; 71968157106613286407; 94729682580114920607; 82652763347015070377; 67452471652504534725; 98257542423972605587; 95806573982430715969; 30944719961686902884; 15929728983331237871; 13068670337144393204; 48991090155645255012; 34013018773480998584; 26466445618871198112; 97999355251116697070; 40825388149198459554; 91808436722411882077; 19431122010271809601; 36835622962871152657] 2204;
SciE false 419 [17009583272670237356; 44514628607613966958; 20070529559184580560; 26429159795947044552; 89454598792727777543; 25892959604518473134; 76853928048066340153; 16607510541565281581; 25603452380962120527; 7928381460770593210; 97576360469759091635; 52099080148338299120; 84635193010286399243; 95803396689621304203; 80602973912529871608; 49967852361700035213; 23711946123192717032; 24852914731666588069; 76953866261394895026; 39100034980856401668; 62999183906710283971] 2206;
SciE true 419 [65630473294703113481; 72664401971442982932; 74715492327354974120; 88571567411943622740; 87981187731658068077; 12695524649571683641; 10045230016464606514; 71351068968851128911; 48285629528893023002; 29415575618585553802; 33202408840699595168; 97937007667871467527; 24194651973373782561; 10121314341502212436; 39663265107713126396; 22971977633234400076; 53136936307051262462; 59771805773958261144; 25727427845773803872; 14626861977394899283; 76467520280154964670] 2216;
SciE false 419 [31954072312162635001; 50175660650642584932; 1668199270763965985; 36684570711708747700; 86273329066615832261; 77160461112013806280; 77103271776010832373; 90973806628814317642; 61596535721141784378; 89042703049418162348; 31396034693187623843; 80986474026486641771; 99012892590847686318; 84372695580613122659; 46043208181915358659; 48407319019739241751; 36734896402253558078; 18358144504240417320; 97166406993410752927; 98584056497283022439; 28873816858578004976] 2214;
SciE true 419 [81728308490714511157; 23999967961881869299; 48021171540635261702; 73855170811147770221; 55212286143319341770; 97923932805704741877; 50531580209996864452; 69235168312796295988; 8324483500152366458; 83208168531762723745; 76311847522280209375; 70564254815882158305; 15130261019977578947; 51658964466415967162; 77144097068737158145; 91413800707818923265; 44527991256937967389; 78666141474572034951; 88004965127639525887; 17363250313472783707; 51179112761098769648] 2243;
SciE false 419 [42584803190167318019; 56327018862668385511; 61561985311619028449; 99773341256468130577; 61503124853138015588; 57428471016364305775; 90904280460427061392; 21016795796580442459; 22981046164409835840; 5575659258452595856; 15195705971710980793; 18926235031217021226; 20809802740141016962; 37008179281714904850; 82676175865101391207; 56144868526430595383; 9427217387667315809; 92447841219358980918; 95384726878274018028; 91318849983837640214; 60899651075858122741] 2223;
SciE true 419 [39192333982570545623; 40168954365907340609; 83533553242151921340; 5914381659114007107; 74378016021263060248; 94058881359715407366; 81329362099107675869; 23405063957913722422; 54789877495889383433; 80037384574689400526; 97860262455398318732; 90309975873115633019; 74772082479002175710; 48123810951189617325; 85640082601604995687; 25934722875582812910; 91600460307889171650; 86663599826876063877; 45434860930306388887; 94698996017352787181; 57918367732389957397] 2232;
SciE false 419 [76491518217450607314; 77229395762463717474; 12359801904637332288; 55464035046640590952; 18408208967057812316; 66248380109796976174; 18404014923005453708; 4616874970168344927; 34253515979967073111; 69707482150919909640; 17227770392563672236; 41507461287960146666; 72947607382714326837; 20206775475543491134; 8531417662807078132; 3908559466273328468; 77265425614122363866; 97404245633280479266; 43120213930476969907; 34832460871955813901; 16167334618357700061] 2234;
SciE true 419 [10620528091642921531; 94536640481170972533; 94016222202204364158; 55286340577408982181; 80617881001970781366; 40141717850058651574; 22464730751190802778; 49199496908195516132; 31387033917920464649; 8280554479181767881; 45347539565646942419; 81415580634141223565; 36991767614177428495; 59788461868610709565; 64764954556563675187; 29055120315641380708; 66000570179244607161; 14746019293701423027; 41183202407351369528; 63508367813576269115; 53917000434882785988] 2238;
SciE false 419 [19913544242877501196; 27935971936106443709; 69548422182330347290; 25507090177503213409; 12406760662570710695; 35537467343353799759; 41205733633735922270; 27669341758914375116; 68163036714071885383; 36823693512986305567; 44728547783374722435; 51800454762095281602; 16277773523517329239; 51822393460078040353; 18324057843814177921; 91551046048664747502; 84270323205296830177; 26435572896550754666; 78523295353228151725; 73559001419684874153; 36974176597121147068] 2244;
SciE true 419 [98033827049585970840; 88570386982588906178; 3979224761033763757; 76780789419949604926; 1595321083379448585; 16704902301453594897; 95688067838413119249; 79389302043845050871; 15850735328590957828; 21108293756786722148; 59998886199210940423; 233281136369023541; 9731145002032292516; 25298692848253728022; 58486204019887598833; 39941118990011284669; 84181820186967876272; 11226079850255237009; 14617082213226939167; 34979380314570812634; 99368635973745383543] 2254;
SciE false 419 [10915278454562945295; 54703933390049885970; 36446914934076029036; 77554495183195748501; 74471269552958628170; 17264579529231454049; 46275075295561326005; 17950639226139708163; 66706343948383463949; 11879866475769172220; 50924240162491906960; 58224587696863731225; 44375781866844607700; 69987141355052942794; 63699360296852583053; 44800029182412584955; 94083247216225893979; 79309660240464743111; 934037434814671486; 42536479351594978148; 99305443542248148464] 2251;
SciE true 419 [42256589192964654757; 14532199644171373500; 63964914424158211922; 49401808417748340150; 72289352816190511002; 43786606344098926710; 50129971398871032853; 69560493154008343840; 97465869936344011508; 40221711884440695435; 61551052662151823786; 29459681159286914517; 76503251232274085384; 32005645022936356819; 27551872510182137789; 12909964552917540509; 66092844651984970281; 69290097845215624793; 15929408860744527637; 85774384614929537766; 42593414888575145784] 2260;
SciE false 419 [27238398695480299600; 40354409464795087069; 31533444855794312045; 36430649561265938312; 53624938484561690937; 59088286229263786566; 58148211189592802486; 60329335377325449410; 26676114282475195534; 46307060857349801200; 93855305150486284942; 58259535285954289391; 71097631558403108988; 57810763918337949441; 46020427120776345946; 15489742969557994900; 95500330494505830484; 55665794338563206529; 62487410697905021151; 52505246896390590772; 96991718597338051454] 2264;
SciE true 419 [31778219047328512126; 4413766745924413108; 12664379641642056223; 22097451372819563194; 47252544403063729511; 29728233154181242850; 75325916012684440700; 50954897661905863375; 24955235557107815702; 50508055511991441750; 76967617394588326080; 74101509611793798910; 48740954772886871840; 36481654455603791262; 45028789216720432231; 79959786816863657933; 94549033888347037044; 36216435927043058653; 23802010487261709283; 10346176239133645440; 2649587958111720322] 2266;
SciE false 419 [26706713960915317702; 30357126626274892687; 16262709018704028029; 88824511159590384870; 62313401223276225548; 79191837448408345333; 84129772467456260280; 93869232470598821343; 36986328699912247572; 37771018520240263864; 34325327014515665279; 56220120992850061629; 19579875417109883737; 5084010878949674959; 35253639747764709097; 58072967523967931860; 1422815319654385518; 59838469728319668400; 20564809534256083010; 85991613033700242402; 67633273971475822244] 2272;
SciE true 419 [20999631205335936357; 98361241706108799573; 28253239534251834589; 72542534651966241990; 83089965584157806872; 95832475356982279421; 93613862969635364379; 32624717780095462007; 63049087219600612474; 99820412193991585495; 85988092557297129158; 17923062573497190181; 61323761596682011104; 77460035415339720337; 8121663359023261221; 46028774917557687356; 38371356795231052618; 47185436852864180720; 70116565086499243496; 1027756045696997825; 35732894472187238877] 2293;
SciE false 419 [31499884272991300254; 81536122848012245748; 71584812260080395839; 42252860804899404526; 13621645584905091667; 67668563289840723207; 83341803287216904303; 21086783446877359797; 52219760634398471233; 93762511224144045013; 14624862902207582728; 84158844029902046131; 2184686965176553190; 62755040394674973190; 43219110024846056074; 33603461319152580662; 63447662730982460043; 70468599703595857201; 91640982554697847330; 6749427637194307362; 18475185297040855880] 2278;
SciE true 419 [73877814312300860731; 24212226738962757742; 18666131623200143865; 15042065970878074915; 68190407258583969523; 75213586426040616133; 96401973978963006914; 98937711371907264212; 32347201437686889347; 80474682042169710904; 72565167372631871183; 806175884202764947; 98071895346449360710; 70122444710599393199; 34832501948684729475; 92266218677121195091; 74059537806130497178; 18549065677575790135; 75729692458514036961; 39975646645383403786; 24966354003399044040] 2286;
SciE false 419 [11227368393273428932; 19002878044323861890; 10535315016224871367; 80216302728067370127; 47691484719703894934; 11402703971151979356; 80857318130545505337; 77949803260637472319; 56577553922542542079; 8589740120151617677; 41221232046911074686; 50070553466179369396; 85930630357713890699; 60169930098021771664; 52205929561208231813; 54888017839511689393; 48420105076603092141; 84483309909392319305; 47926146093301230692; 30571731399486083739; 94599873878811319002] 2296;
SciE true 419 [62215243684249038203; 45981273921163481; 30109482401886245526; 54282560716877446990; 50100180038150674891; 70670176111209225964; 65778697984911870953; 15236785676922119435; 70548230719813712304; 36334594377507365155; 44782604057653471866; 58242582501375263777; 64202379069624780577; 47402460802797274443; 33801205487824755691; 7647171291137465314; 96942588297967372325; 80158108471613124540; 94227871010997096293; 87131062207004655183; 14999211990079299973] 2303;
SciE false 419 [68158014768102457409; 36301738557706857780; 70685264189475306296; 3195881062570088277; 96005081491032567283; 47010269215932626392; 86195953617547328535; 82736845744984080662; 42142271341603423536; 9219988044367557478; 84062354386949699217; 34051441982570546076; 45551151845668295544; 26682775237727997090; 83153044185556376814; 70727756663961472136; 62536348075609766103; 41187264347641175507; 75942993967826932499; 21225984116123502797; 80069876483329990155] 2296;
SciE true 419 [91815154473117442877; 68974756539522213511; 4801050030721360834; 92557412260019343568; 77700228610039250928; 73056920988748565427; 43401526608662273337; 17954966043347461462; 59730306034930914377; 31389362565693368537; 39898226225976214643; 27346357730167579928; 91979810681341583219; 12751934509862521159; 2072175343520512712; 53577383517447952989; 98850928894259294176; 76741194242291044192; 17339433144565574270; 75069465429806190617; 19588976399748720791] 2309;
SciE false 419 [10222879261011365625; 64862493584380867445; 47468320616611866123; 2535436259996618502; 12615913453377517667; 19000140360249917024; 71417682856196633083; 50921270367119368174; 98706220710803136735; 57086682172464211574; 44230318167009912670; 33407408269503645120; 69868943569563943004; 75965041867338958885; 64958853165962942340; 39103475474896458226; 69662382181545869363; 5959672490913297512; 9444493730225967661; 5905864461391200548; 20862489463577270337] 2306;
SciE true 419 [27900592209975594478; 64749566284897052840; 10736570480402033341; 971816461831979994; 43785319170315851751; 31300581100878051080; 89139501535428494758; 86921606675579630097; 84149142715189088054; 38876166708370874932; 44127627873711651571; 7023862320152644752; 18956276261899505939; 10434215536953833073; 97083101624209421452; 52396881719265874837; 10795448609161287782; 78467637492048027179; 90360366083736176750; 2678858984350347764; 30383344299491769052] 2316;
SciE false 419 [13495980004044083775; 84840699826130964704; 3597111534702401323; 33185008407287157808; 72649175394497988092; 18168027769009062344; 17515459107682264631; 15489178744683688832; 76961370235601709924; 16841017086804540389; 77491694245444995002; 85180692237418566299; 37525843884327365701; 4907313521693644502; 87183409078506424204; 1730104797256545641; 70599504563573022761; 64506354310915138531; 20359615373927032260; 3938401229730267818; 48466155607766839671] 2321;
SciE true 419 [30418787822052706398; 83838727444391681936; 85783211685207028882; 39403784842272179896; 12271869402964676881; 11336236741632559727; 35814472959105287058; 72634792739629825482; 99255259643780271875; 34959996061153529952; 48842012501646201337; 70556086079312940407; 75770289310621365498; 85089009460887289526; 57815219151358094481; 83428506209843154529; 90765266366692259518; 97229899268857254375; 79018329067098892845; 4768734086188510802; 22327093099349515125] 2320;
SciE false 419 [42791014923211184704; 61617436994019565837; 99122504868238982920; 52060918050376243970; 18824747251998374224; 16708352102140234447; 68060834237225504328; 57158500628637384671; 77321395755164618344; 63685795556389917659; 96775831130546102947; 62833253985472558023; 72734133411615631069; 79897066729342020704; 3701514457301139651; 47090496580029006800; 84773956123348522035; 41631924887964042947; 23991967306875289172; 13948853755491307513; 84018801032221731928] 2326;
SciE true 419 [18170308457501842461; 97454906423671212167; 89779121559665418094; 16026595046757201292; 83242256652574578425; 96095342213074302135; 25925881702291758276; 18951896488506754242; 42202692208998911616; 57882747501453377786; 52304891077614123219; 13107795590425442762; 96002928481827623136; 8684397568531210289; 74145015650350357941; 9933656621065219686; 78012512773414681626; 6751954327950575038; 18726797006311113018; 68473886560777820121; 40584741761735516383] 2346;
SciE false 419 [10289635241927192752; 54227500000881100821; 21471436013857122494; 54161515995706179715; 35281318944451707793; 76220592641489692098; 6640741184140432949; 57651032804014788884; 6765002498346391024; 37543002705516737128; 16169085708015195173; 24660739708121843536; 71057868456048375417; 22755542189927672384; 64649703950381336799; 65099614403275457606; 42839378516651840050; 76787567058695326416; 726699313989380589; 71216616739037742122; 27320271807051680128] 2337;
SciE true 419 [73927407959564284790; 60014952888351356276; 57674676036493480471; 98796270165835741943; 23422134293700928759; 58248686973552467880; 14853962106650574820; 35080230001977248658; 60609510762179435277; 18334039955551862311; 73886732139987614184; 31026938903269243831; 78333159674691874026; 4001294027916804808; 68208095033193402537; 29129055145127976892; 6926233707601523128; 57074141419825400839; 24298028587006671528; 95618288461827233589; 42840630593936172873] 2338;
SciE false 419 [26597391588975054354; 27262270849191909635; 71080701738570536230; 74781815620349252761; 24304298882503424654; 87520890007034078396; 55449378998390660314; 99738549473456525731; 18851702273175183686; 26383373524956888974; 30345662752826513797; 7119967268536368499; 32117199757898706561; 64056182461484925878; 44784252212706633169; 78064786453698689598; 3238342070507517580; 14155097783722210612; 6083238322124131805; 35081236087442246008; 43720507655406385272] 2349;
SciE true 419 [11748109303713653073; 95182891809551261727; 51817532381352441471; 37466443435545553184; 78679594610384624177; 39817276341591414656; 21332606474341799608; 95450347617102470014; 34924576240316666987; 9234469513455476333; 82920307606090289062; 74472983236969653128; 26647900257936132053; 87316029261551546450; 1835886699659923085; 11666593980397636591; 11487377402312767770; 9453191567706266373; 99428855365650129161; 74051250981139393433; 54339154405897424255] 2348;
SciE false 419 [11848950532539475482; 59119321289685161814; 18133179068339965712; 14398129081982758805; 68092646554709882269; 27530956820215399994; 62902434633021561935; 59082186716654536462; 82642180229617085264; 30121122436380995176; 24686990869865407294; 39498082952135463785; 46937998189983699115; 72311389709698989723; 25710346307215974609; 39713790166164735711; 27603099932601451051; 75274273084709325845; 52765744611761019375; 97972039108861889933; 67706556055719738351] 2355;
SciE true 419 [28704014374547186962; 93176391200165415129; 16802268089895046151; 16113126899224118430; 44693915875309599077; 42678037527082247260; 76641246233856054312; 16551466958388050943; 90505335913134401117; 80077096267399213772; 22864090820687919239; 31393351401024034098; 39961525989634078961; 58773140287285438080; 92014104137648853913; 18817575712315727127; 3642485733769151934; 95059799180582331975; 50733846510807141302; 67283955330751995768; 60970449656416048663] 2383;
SciE false 419 [15244226731836464972; 88506215097000526008; 45259218947526697405; 22068816670482847779; 47993622456660445157; 42321307735345594041; 16131520801617716276; 82839282433924452738; 67630108416901322259; 33822898352855782158; 54088401045784665572; 49919109708960409427; 752591085660075327; 79801822303617879791; 80028521792777954297; 11663611537667798773; 90049676695843749991; 48729028623000350412; 3987578486997140993; 56408763150488604462; 66738848377026541084] 2361;
SciE true 419 [16610177569304894718; 66027201132549645867; 57215295808516194246; 21478859153717766743; 16774891877863497473; 74281193508854506575; 69534633867857440580; 28453979591438059649; 29972765607175170172; 2225599945530978864; 75247394589635457469; 45730393052382130460; 48264023548126293227; 47435348465433634371; 28515315110257382145; 48588512211078119904; 4780171219453995484; 71757267884694227105; 48996618741936637049; 75472024352067764430; 29448926524383705947] 2370;
SciE false 419 [17504859197491247890; 41710772801872293043; 2225192602532895665; 29863654058247749673; 96099945287741477351; 90770797641050501354; 46602981998488853511; 65159057878233071385; 79207817968679599341; 8249000801769526983; 13452347899063489643; 66087914859368493452; 55978840675216991660; 32778952744397878680; 61076928079456492761; 56529157135433868244; 87179936026474391824; 94237902741427038541; 69383819817026439496; 62115693340396946512; 9702685685816175807] 2371;
SciE true 419 [50882298081957428318; 25611778373270591129; 93066969913261728043; 59963572468649981378; 64719485412626427388; 2682665262465234260; 98221241943362513651; 23428027198617547667; 14362006632825923770; 27890944114295985655; 87888492722643850718; 71434896981425219923; 8361191034691129182; 27329447228762402804; 54755676606146035422; 5230657599414554899; 75533223378462498962; 58677787408082320099; 32595668301807893141; 60635309758530152627; 85788994017801331867] 2375;
SciE false 419 [45697769737179791803; 84578639178585687412; 49385431547355776050; 30085458073188761358; 79292388499753149999; 3494071778321299795; 78237140474670508158; 51435786167945271334; 54027392582756632965; 37787360674738306701; 66068915627166802972; 90918537275382124038; 21555221679233806714; 60374858412883813586; 97734548673063349207; 86940180586676657372; 88607029182130936499; 64346454079535253565; 32839768090113699070; 68437755883654755871; 36496601738528708193] 2380;
SciE true 419 [82826711613404354275; 91491496193488344386; 8023050691744923904; 99046568399099276624; 39143189399452450524; 93897421854066615764; 75736853409126988272; 65349874552131508755; 74940860096747319046; 97998378372466872620; 16730310407149652522; 47197046398809232679; 90932300214551562829; 95898819175410307604; 81721387162869280701; 40712922895168239456; 33395389326135105083; 14108428811011617618; 49990818287636454657; 93610143458358033426; 57399711179724786710] 2388;
SciE false 419 [69889726336545391573; 55709725564917845794; 27113695284268334387; 90817109928326348327; 60648644533245466074; 68016576411776574020; 44697605133194244219; 81326242223126123666; 85042462513865113771; 29220008520857002805; 3665500249911636490; 67878621917644719312; 5073498661058343236; 65397966587095744889; 35104668233294671237; 91597770888765162160; 5262685006550464397; 28029597242292321127; 77801203972998527229; 82739283762961268629; 15688204325977244680] 2388;
SciE true 419 [24954864244676964705; 14851022603168601306; 94843233339376172395; 69523038873175096438; 18748671922675448869; 62748831747121622597; 75100479412674256358; 32687167106927286839; 64915968217436029258; 15993308578614706922; 79842898940900518225; 22645148670676351356; 71782447449958567588; 24780955133800318726; 21659904024632889513; 69540765923143721033; 55232181802033973135; 8921791255962862803; 10749737884511733352; 93760337486316597467; 89631992135512672940] 2400;
SciE false 419 [20253433678937856166; 52177327256716138398; 97356471866144958790; 97116182132991670771; 78283823408244528312; 94399033193210324427; 45246743679035004976; 8579097489585372389; 4954551083652304577; 72519003746046850393; 2872696264914797951; 23217813328627371769; 12270006779862893112; 29916680360145432082; 64107925926542326733; 11141517883431343290; 30772086207978277905; 16877237718997303; 80757705285871806513; 56787012818236155805; 76503356318577562253] 2403;
SciE true 419 [31180557399745678695; 55738159176009433311; 39321018440789871711; 30698862881193235441; 68058080372686956597; 88109219478253782639; 92411720659595052142; 22775930750935671129; 36261180447284495777; 92886956304139979676; 37376844674891629268; 97351827104060754763; 90159760104420017687; 93458016707668912508; 51369779352163860411; 14870626222512949215; 48897215870725364890; 74468721464588374157; 4881226230881034294; 68161201731802177321; 82423550089372288974] 2412;
SciE false 419 [26351256521063949101; 8736642836764121265; 72297187480663125850; 93380800901669571829; 49930088449426475674; 55487444556475419271; 14499588073687391339; 13599255790033464984; 71244983366705006136; 72876235163412086285; 76600310675376837544; 68814120189850925924; 86603899945856381760; 43342952529790654685; 55046874960184840049; 75750060471909417696; 12189056263982280985; 52696174355862346378; 47783966871922637257; 47691479851690982582; 13629209483888165930] 2410;
SciE true 419 [25074309681532521066; 83033830604589897352; 47832388796740251738; 15218509050633841419; 39752673230991359943; 6714627558546430649; 47263862174082204946; 16595279410660552137; 98445023427737157997; 77480877842912154029; 68925970274402088597; 93238750937430763527; 38462401246767270955; 80232469605197454456; 94308585447723242676; 45858598385824422876; 56126319429690334463; 18000342470999354827; 38511433541260729709; 59020296017898785952; 64950324939024813733] 2417;
SciE false 419 [35874922809806755693; 39512988296026926661; 88402319126768483145; 85664647170199523072; 71027353770433989372; 97051577759424551005; 31828141386362440117; 59816326239581702783; 28440391436947435926; 92624680670371917142; 64556276881626539876; 49777569177229015870; 78202849119570599646; 83823484033434574430; 24776826685826217671; 72134658443315672363; 36997854461791062149; 67694265376118119486; 6907732536224816591; 80482098322456333636; 16233271722868523374] 2416;
SciE true 419 [13232576884587449499; 86627678327552123382; 1748052086853483683; 45023881811810567166; 66915995117722008717; 7591499401255844343; 2464743184385174623; 32232225315184826232; 23294164298689047533; 16460580083926182103; 34144115590930076990; 21494518597036421182; 18469264885326574788; 20524023625940393012; 64485885685900478367; 31832415486914948957; 4237147098184053264; 98489336342413255715; 71725073922045682999; 93263870291418084016; 20075104326693897253] 2428;
SciE false 419 [84268346214489474072; 97106360653940942977; 8619819314088463752; 66398997518266852583; 25967532502876180264; 90767608521622349828; 76530935655746984222; 87346081691180933904; 4541886026674027472; 819119019363512062; 40800237841962421466; 1656793697062230862; 10992298766234046176; 131620029986229703; 1922449901666596198; 42112675751676873961; 32544568575520886293; 4909913171752573951; 78426697234703344602; 50366824750653792816; 63128482838855849900] 2434;
SciE true 419 [86718517279994412031; 25536170228090622067; 25622174808685353225; 89142831789168792812; 89866610413391859629; 41251165944607116608; 18147450683532581734; 20752183338213677888; 69920434227870736501; 15586831384674460175; 88103146965262927836; 43340895005550723538; 37352310449334268237; 40866558374997656377; 22280479309152901283; 11015928705038005965; 88349710016565157311; 23700419218352526623; 16186912206056459731; 69125588349156916978; 82867159894818110446] 2433;
SciE false 419 [11360844699171198864; 47838751147805083648; 63873824531033568257; 88332738923212243033; 46222366732620197025; 33496113190728938808; 48180788223070902962; 52863152307479169091; 3296445986918062919; 13086543594449705650; 49726954117710596253; 17243636601883381067; 32085374361600995207; 76195787821352197948; 62667993226509932734; 6795593014235657067; 75417313483410623727; 86133007115151254869; 76789954469332458216; 90280535004349690174; 83691552832627130197] 2435;
SciE true 419 [19129610805698057415; 67088000317696339994; 43983300278713037582; 86188535878328742000; 32714061361991069994; 80605145379320084749; 38449964880870190582; 82856624586522423131; 58422899335893947955; 73912896088556211355; 92385246626201144478; 61411364972010143287; 74777052061803070675; 81178101666611798379; 24088483867059161176; 2874694781910735686; 14251716949781456558; 25577772325557896019; 95101433676145862995; 86498577538575217463; 92131076426213993373] 2458;
SciE false 419 [47370549679554801856; 33373764845859888287; 39884525202108292853; 21561531714385253277; 96826283062045568729; 34938120879615833301; 83242059235544749187; 53645490715690473702; 53064250689028379624; 57253470385627943137; 77663210406900531572; 2267485498820161058; 97889533954870596066; 96692033149151699447; 54691974886889302639; 634354979503055940; 21287371542264238730; 26224698708000941151; 68141635255636992783; 94703321470640130083; 5940790428056668628] 2445;
SciE true 419 [44206067243817925817; 25121723572769710992; 76289183029377021729; 77076650404205105896; 84433467499748758115; 30983684643310980153; 70283040573484857716; 16954893813899348133; 97398328322171621923; 45813536353191186103; 4366990695543582770; 45941797348541906882; 40864576166538463268; 27622905580015783919; 96082763083785697400; 60621406265778100330; 1299476248603179629; 10903156689180412753; 45625283292435935416; 83269725276065177623; 67583212049115567190] 2459;
SciE false 419 [14825618152168836133; 54607241919137811667; 72985271489168088831; 21021007291603186535; 82150683185818835945; 98391993737815644220; 83902693185023177950; 57999583250656265574; 99055117029264311131; 51536243186542481763; 43339738442061827680; 74685759427862140004; 61607192935603688130; 48661514679154234719; 41391038652155891653; 38824730819834203136; 86086659011219189211; 63592764591672243888; 370579971565711722; 15867773948012408666; 77316082371842091430] 2459;
SciE true 419 [53118689869405201902; 52363633951067178851; 28300007937813193212; 92229093805370077982; 2973963595220364587; 64414766779756129654; 8004700643935555146; 69568754782084453779; 19858432820073005196; 45387193845441625788; 92569092256848803618; 69734937468557827200; 8303162158429404485; 21847686518964099711; 96347745520643147963; 68412323958982874243; 42771071258691635855; 44546871757998888204; 45407184191693975055; 25941451106142637994; 48075225250621072972] 2461;
SciE false 419 [91798103463400048766; 85775195079845375475; 8958475048433102307; 61599063180433168515; 52891863353180950378; 20719137600440164644; 50388001779014899029; 33193233269830665251; 95384143013336477081; 77195024521825031826; 69625976988561546672; 68669547706041862601; 16805604279622353543; 4789699782255327631; 44718441825717141047; 11671671904050333664; 11569197742290873893; 44517536121333256359; 31578634839862333036; 1601427751005580444; 28847112582594514980] 2465;
SciE true 419 [13838630474686962243; 11720340953858733837; 88695728114888527387; 20827839878683270873; 35969509251833827237; 38361719774633241071; 68267396878173923524; 71408812059272429014; 81550511693271226343; 59962506017940873319; 26678810785551842331; 16766173195504984396; 35705917456190725013; 4995303573483450350; 79018193962798074038; 38511996970830259404; 78178875022281718162; 2449549725212605660; 87008014400733289786; 39203390611917308449; 45040292748038834541] 2470;
SciE false 419 [38219179145696466488; 28897914132277838570; 12934159228245952451; 87560787489076069276; 99195833524749563071; 12931217256837659915; 72506026705291787923; 42866365194661033207; 78375375032377389043; 23052565263011249538; 10443574639181127852; 4552262414631493323; 83754408698062530319; 85993287350283424801; 45902371398671687439; 64454270175785118775; 49258946261966033868; 20968488407071985101; 20402863380631378552; 27970760415391401040; 67688341973872565529] 2475;
SciE true 419 [40607544573726671774; 3072203527212043226; 87105291773457205940; 2783923358439034122; 52370431567973978431; 30850499832624642004; 14759424368566207421; 87470699889495757995; 24861574830359271108; 63272257755293891574; 74177051102316198694; 11517497522044666161; 7467569295052497395; 91881730716105265329; 70363812993256758956; 1015986276402637301; 87799169031898566501; 68675633349369534725; 90284075702057379937; 70209154236241281524; 30262359128117243782] 2480;
SciE false 419 [14686767757564672182; 40198250174872794096; 72874316880685272133; 30600765276528393665; 45218377075809069697; 91392898271133662239; 66730906206934588868; 45516427750211225650; 96749682691994336658; 84938532623347629400; 27117961406242093045; 43095167568421886218; 5422097389604937004; 414313129110139842; 16567079103586879423; 67859353580886117669; 94165848307082939998; 5867921725551256226; 9226821203602966780; 9698801744911440421; 19813799561744479440] 2486;
SciE true 419 [10536233540939386910; 95860868396805736767; 12777586600134791069; 61390480635905495100; 79071264592947887704; 52640259872927018634; 34634394807562720812; 97274889898454072005; 73156137244539222212; 25813515139959761660; 57335327202545793387; 74855478488102023325; 17151729628294874912; 45962183286232471560; 30647054885395506852; 48310612647167522120; 76025832648844818999; 95270640604903461690; 22807502946461579725; 22361721245725897706; 68237213305041093648] 2491;
SciE false 419 [63946711517207471198; 45347455380174369119; 51622887547593631034; 71048221074656924466; 89331269443099145236; 65001270692030486635; 65221441348254124220; 61222895865773157938; 14510943725222540852; 42725448384222379541; 988842168181567918; 98827782056264071032; 98060166712028777334; 39030653983121832403; 55960081738931671688; 9083789920568781002; 70703656652724494434; 19958023764639827035; 70192097960446996787; 43948736827733647319; 6157964453155762083] 2493;
SciE true 419 [32887949260745019261; 38560443960294773627; 59781557023276453104; 61045098027671310002; 52236858719563304142; 70131972987778689083; 19017911445049961146; 50608003007283370470; 46793493692319340258; 4146977979401173809; 80630878285232113508; 71129075731181957558; 82917803082106182369; 23131205206395836373; 72012682920221205425; 69497719137640500724; 53647291743761655968; 36121606881726940506; 14476522180729944756; 57746421122112463031; 32976449644577172451] 2517;
SciE false 419 [94581663079266436510; 91733990957970687049; 95329210758532312862; 42005516634029341491; 53452194693933193853; 31722781066163337899; 77264008442417405259; 76416055580928127729; 37078299192891272212; 74254626915496646464; 77041476429481024928; 85025493643799535895; 92504071121918949491; 77506997870760533569; 90194963912560582475; 55243656205883891535; 29007277181513819722; 56369749684111272964; 98988676306479896119; 14275484445378513820; 56656508551105477528] 2499;
SciE true 419 [20982877398540526783; 11798997182528556009; 29682563590575591641; 41874259713353868468; 35833136904910934900; 21610964148009161411; 58754283853849350536; 9397125237809943144; 6218764600988373417; 88100253878405935894; 32136359614193744166; 43936306954316527871; 35527593436965195660; 4534023790272390514; 28353620196895301604; 26610700416390188634; 98121952769115635849; 14771435681927284035; 80821244315272536592; 84696811269075056577; 51185325410843857750] 2505;
SciE false 419 [62536231906979575985; 73565914143510233347; 91864680536675101244; 69371720622489215997; 61670410357733162298; 83552441008693210422; 67336049777655427771; 72550022504560387602; 51048206616139199927; 64112219173024590854; 24084182955521372382; 71468804331780070169; 34082291020293395443; 23491757238590749676; 17712456977522506631; 12546872672434597177; 18921558333536062341; 71121637956526973321; 29145784469680824723; 81048013818258353515; 23197110302348791574] 2519;
SciE true 419 [11834212473732633214; 49697999568428902250; 88238216248382313150; 11964960858714476888; 7054379817738412932; 63660817854568489932; 6483083900543116810; 40856528934882766097; 78492307368359623289; 9511294134317469590; 64822667985268859321; 46256524686590986136; 59757877062476941631; 91383125558221754109; 10200618164889545943; 40817754765284678027; 39818810388968284499; 46717874363687244326; 17755769089477200952; 37456183685330247378; 97166118699294299605] 2518;
SciE false 419 [55680772493069692935; 13454998450258891781; 59567569180213665278; 76316957524912350179; 89935017373857844591; 15954057222436111472; 15215819057707728998; 83907356020891391756; 88599862466697597251; 71289860601383706031; 38456768792933563594; 49954121040596485471; 97740270900837766165; 64088532223302570840; 65682023834104297006; 17533096672769331231; 73188952759179875260; 12759253697617904924; 98678679718797299806; 86126893113505115755; 64276497636283582575] 2523;
SciE true 419 [17815632580678982921; 33214903176285652038; 61947676598175314436; 84707429113710148891; 81016761576822896758; 53986040181149205558; 88247791301000167357; 2285349398064873565; 50624599508296520454; 5582745055803245019; 12960301693046257996; 69499170173744355231; 14812652688867804082; 22268775713206908363; 33842449467574113878; 61726792414346861850; 69655920580646381760; 75107820176554834032; 52530569567508809097; 57778203275468078800; 88702112369171340858] 2533;
SciE false 419 [20937243609990334830; 22051626693866363570; 92312163148327637780; 41373919361873203801; 98795056067293867991; 59559267388676261619; 43232015962080417038; 20235527299978040950; 15853313649334091437; 56498192824941472417; 40385330597496017300; 27378983194865496904; 61416330203601268708; 41555818671033252104; 25113917408793035062; 78141708078230855977; 50742683101578277474; 16909160109603516645; 29921595499639535335; 54152077697287654210; 34361208312412508581] 2531;
SciE true 419 [17055624584112395755; 38565549761168175168; 44710202167742017407; 81417978953074642047; 95907583853444129711; 30500217188194498362; 53792421501262616532; 47127306600214489768; 71285987368086436715; 94516634986396538108; 69818941313852430087; 41955392303658463767; 12569389815611424494; 23325281003492710780; 32317484851663211212; 34868162833949512423; 42181269223173299352; 41566552903229142898; 39516826978517068046; 47861471295125385130; 62949034207416022644] 2533;
SciE false 419 [10819905002590056828; 88382597642982911595; 4044429911979598235; 58074987143851979248; 86246689877226199006; 96550859795957830554; 76075100830842263318; 79715417303299118299; 88923872825399659028; 5980528009417961537; 62841843390388795389; 51061402273346020658; 15606847400444849749; 24186239294109718826; 35628077022248582329; 81473889652157075603; 32595103981902565591; 11716563510357707939; 1898619730381099150; 26417960421981990721; 67452276203408474323] 2538;
SciE true 419 [10393600406609680769; 6389144307636773330; 90210988010899224933; 77782553721111711904; 28793448379132633495; 19647418923020314162; 78497811103802071338; 14729195994279928573; 39243818667873742033; 38802503505309689797; 89933242350049039688; 22428811056219275930; 60217646752113835114; 8460838952914524895; 68256416346599006553; 55809683297338500520; 15722906358969916112; 96589205005999420045; 58810369565051250854; 7411926060861647156; 76996177044061405834] 2546;
SciE false 419 [73654695662203416142; 88260111948391053631; 57870946496928222023; 42580437823896062914; 31779022786169505731; 52780109479612556079; 75970364093679215840; 39087911422909904293; 27921035319239022564; 52055520194889323626; 88250939875372463355; 27028521216695992066; 82357810763472540311; 78055312596351325412; 25818661033283555560; 89721815222361956448; 18416625409012387340; 20567030692089684891; 75582331674892183454; 30876803929453417406; 33344133939562294429] 2547;
SciE true 419 [30423817859670101389; 25215345434751742775; 98678287513867272588; 45068958241486766444; 27146657664870612099; 55938280744050211731; 58314185961480362262; 39312617268620557277; 86116843195390464575; 71171080302343290723; 95687047791869550350; 56647888262565171502; 53766937761653952377; 16083947522585722795; 49544869127160040947; 14575883236511340544; 44350042527822178445; 61502678678672581260; 9707240823095418293; 71512078058207596668; 94086735447074058284] 2572;
SciE false 419 [67142229091571705635; 97598970239011191047; 8058368006900230293; 6811911558617138413; 31006815868320539103; 15473821897602064699; 54452112972456436661; 30162304321715834395; 80254333262911752579; 7823776547274374066; 92253383830035849204; 84832333657694461459; 76682974121980369157; 13120182089868669686; 69129454539964331261; 54880006359062876628; 16386947715434260540; 88320450833671582187; 30096530655994471655; 83236572435783190330; 90276601498370321348] 2555;
SciE true 419 [15440576487662921661; 46372872298082305930; 57258321641325572781; 87131191851407058096; 85626323098108975415; 33706623649621973652; 29284747199154843285; 76115494738205322186; 76631806938590530473; 18365144582383695452; 92108269984696273956; 49351373349466927307; 13453398363009265322; 93848216741224717214; 6863149922738952339; 93160455714698969264; 64922426289187940921; 74867166507736182458; 97094486863802868156; 9682856669810703805; 34680714210631562163] 2561;
SciE false 419 [26438191641587568217; 78264665799640405218; 56794443851986238399; 64330971780974691895; 76955196622070943428; 24926243061815781084; 79655739037485240118; 73814270914863819630; 37264298027975120602; 63339331148399015620; 1762550664065498387; 23679925480394263707; 85546236977549270216; 15745594352806632595; 90377118446528313127; 4312152590750264739; 77705450493081875229; 9373039188056295883; 84040282635587692595; 47658159519617545913; 12869887138487530026] 2574;
SciE true 419 [11824596631524412484; 15373970054821881271; 89318685614012729502; 55386926544145884575; 70065986672258267129; 58128888019753691029; 84037900798953676803; 74899592597938892881; 57302668188650027167; 60500970292441985679; 39743552936839433894; 73469224701467015545; 18997618100217639584; 67723847481980567734; 48871897687579076805; 56110444195141616882; 14179026790723282962; 37490332243223456318; 31618861542776784707; 57099580876962074413; 58907796994519985770] 2575;
SciE false 419 [30585002218101700770; 3226084222133725721; 67378277302516096702; 54471763136931088805; 21008063989369998361; 90952794797902979755; 36311599202965972490; 55186586715383466967; 25543715939400478115; 21117588783446461368; 58480530397265083979; 891954950044113553; 38459108640391347315; 38541586859021533522; 25197302418080937308; 22449318916086581506; 30332165500981079278; 46232567262418111201; 2683235498555502378; 44658333667117585064; 44290913503654765630] 2574;
SciE true 419 [14702291128247832755; 13993023969316665780; 83803094351695909593; 27260833030101990109; 19759705302045797761; 88994671288854682173; 57841387873712689500; 72805107511992745231; 88423256765292514414; 87469359809596363912; 9253860474911658488; 2021229639479486485; 61374586541315372676; 85678354832699082401; 86259855626546796201; 68734943488810820164; 10388141653907454396; 52268447718526756545; 11833724270452766275; 42298539596069378849; 13672740273462370494] 2584;
SciE false 419 [66445816920878192774; 91674288262236782519; 68132497874676568553; 86954100841275583026; 82686734777674443008; 43581177071054099165; 66552597123432056364; 48250052199293515169; 69814445579583129139; 3420680829525386269; 47554615821997131424; 50618844358877882807; 2484031111472070679; 42535123466574691980; 54455098811758999141; 39090832821852665252; 42271654764834049687; 34447146186690847865; 61804570213500787363; 30879751425478253997; 20390172840939236608] 2583;
SciE true 419 [22235168943566185594; 96244413178149410325; 67152926337496028477; 39637911947114731996; 25627099228431741205; 45469735453022557428; 31594361992948935575; 15293150651010235970; 68182835959816969963; 53542289568917272280; 82175348916965406376; 43040160654717605101; 70148379672609156438; 5465074191490647551; 82444621132584777295; 62505516011839478433; 61243898761137894919; 46211974990867849128; 7732573835245649599; 63066823866815021107; 88767636808804200811] 2598;
SciE false 419 [10224446568423823656; 80295412309691710311; 42909941313393206765; 88970584849739768043; 97897471771810548289; 63981081806409736178; 29223832164085830400; 10428972941663940821; 42478331186009669760; 48359251030551536756; 60285777513707571846; 18165408615343822968; 88171211345334192384; 28999479022081140920; 84758090419175850631; 91947640092306978391; 39386053237114986154; 35154116571643779280; 10879453312904479521; 23185405728570174876; 65531469176173799593] 2594;
SciE true 419 [54026993826237712700; 11848488058444528077; 6863558816976297502; 96109746321814199342; 22513365623308769187; 60448336057070123349; 22890670025475276570; 97138422827275799663; 52494882168766291921; 46868823337985719382; 72337415459745808212; 96817168622999566306; 10551674667624156670; 33516002247579460605; 40680410312744082317; 64131857520295994975; 99141683574472734570; 69640039850451253350; 81643349027422068627; 91404407009433593493; 64286277965300803142] 2602;
SciE false 419 [44410369615708936600; 84511730245428637541; 62407982307186068322; 95424747990393606308; 67901756981326555626; 57478077830961025138; 60728912609871344311; 4649012212231358280; 62199424650767654631; 90933545089079716972; 82740114649141370921; 74651393563258304255; 83849237749561231432; 2736315574920279247; 22374337033794462417; 17310768755584329734; 12188615494176833918; 8489936575426667321; 79928010141547926914; 94124210807305687715; 82940129652837050106] 2605;
SciE true 419 [37605555866185689475; 20252321461268927219; 30580021701674845220; 53817381730262115662; 10843642176980335970; 52833071472033545082; 6978889026897976111; 31398697100572635508; 93642344783638610015; 93851778624316939851; 14691892103480457300; 58615144578382752054; 58235878793986046842; 48262124659871754569; 83275041752745437369; 74511621220107119252; 54814546044714751120; 86174666868798877101; 36054121037716315297; 17050597689210309899; 14097902160732936286] 2619;
SciE false 419 [80420674654224247732; 39191137464104868776; 72997765586846719136; 20681818374339108138; 77827520103412744809; 44544845431613327691; 27166135660765553707; 33536899484607561160; 67353653500411616110; 48766142691420502516; 81815923074238396320; 73434982589882344762; 16317317670396706957; 92129611159902060022; 823059275975649272; 68596719546911899513; 71681187368178319366; 81614635001392415377; 19048845714027284085; 15854450271088777281; 7427015399711892290] 2612;
SciE true 419 [13661916354499795988; 82620980658759324433; 28985773547821009936; 23947287216139713457; 62559757020429069249; 93522486853214969347; 55347813789143820773; 25987434834374291202; 30955753071734466488; 86494474146098645537; 83303364945567313705; 55994561432170733563; 14561646462337413436; 38887424796354581032; 20570695928950082035; 21799164875612596172; 48999203272100674597; 45741576551750870980; 23637665539825895236; 2108221090636530862; 76430471723470930278] 2624;
SciE false 419 [11652052417212141608; 93084308074173754019; 40197335004176268274; 4271636416077545791; 18773822145498673704; 26811427724168258511; 17492496632070411558; 97775471030712991991; 70239229739190723724; 979176769436327474; 2090490312007347644; 2661080348908969541; 10613512055966027813; 21427482719784718716; 49976451219014995158; 10595717853965532090; 83592899841335605556; 39295101524343802112; 17153061742688740658; 50109808000965414505; 94160610946151743971] 2622;
SciE true 419 [11730885985538596708; 2210207257003740333; 21708512634646169113; 69631609728642179755; 47923034356819025918; 25817450062396560193; 62242928225644627696; 29790401888742280262; 67548629618742914919; 68321018652674050337; 69271895411631131371; 77169517104592779758; 6186015562547514177; 85214991668800156881; 6158897051918871711; 32825759005388328295; 32648719176305554874; 37797569157116539350; 82804186074435096627; 76736386402926903352; 56595923059352263136] 2630;
SciE false 419 [41027304414152884640; 72654325330483327588; 37778977651078021399; 78966517017111532833; 83376609519422503803; 72398296164523955060; 5463189703205610042; 3074581730215330586; 93786295630522675666; 20067623520006395036; 43681177097391269157; 26193775591346489508; 6684786621582804718; 61674043179506214456; 69242951228879725965; 31968243429753280723; 95640011193479528352; 82093138952430958994; 36293735681510389199; 38608437705080361521; 32540336865899317323] 2632;
SciE true 419 [13926228322446399293; 51864219709027479037; 89147254607420288930; 52661940067488549141; 74564241700326395733; 24698508928231229364; 86131199646129424545; 29213589991899262408; 29136484497709486219; 98958170776126907368; 80069249007677705825; 2694425830004222858; 27564974818686062160; 93845205512564493519; 89797116062811316904; 28067079871026951514; 3413769736577606712; 79507948473360714643; 66135882637889960768; 53216228421778215886; 23881456159053286668] 2657;
SciE false 419 [89354166254398576939; 10166049757884887196; 74250400264119962404; 50016031945889653326; 66095830610927264403; 86197256246916541909; 22244871077173482384; 58511083952340829234; 51004652680217508974; 29262674233917960324; 32391254041082684452; 25149873138180653614; 26492872980661109476; 2313666964845600327; 73195674761679164838; 10167033256985829280; 64520955698774936059; 48314508246801776499; 71561852328074941478; 35125158333577654754; 48371178971939025345] 2639;
SciE true 419 [75164508074315599697; 2191922485128998471; 34287429185425431988; 60867248676066951121; 27406766611226524129; 86354936353815548056; 18350741500793445540; 69232285212948626520; 12685143038763786063; 69428757871433907745; 54644866177433659693; 48822887988301136449; 85646827873085262947; 15483932080172977590; 43062259850328923324; 72107786640592662349; 65285941794730424364; 98567649077344993375; 1983808520857409330; 29917926957529017469; 49771923217758584315] 2647;
SciE false 419 [21723366581851869564; 82776340661228566888; 78408661120186694245; 20508453446435808323; 96088787936771751824; 85408613031425996599; 1133113175097683481; 84382766674062289203; 28666409729025279580; 77683717002298264179; 30720436365962697597; 7611019104415189809; 46197359546641711592; 23803749267975060328; 83843866358427752500; 49594726673434160841; 51297908373769895762; 12326160318557434922; 56743422727217031419; 98555266208774349434; 43490947346978158322] 2663;
SciE true 419 [51362103557412137994; 93184455165807301573; 51889535454314911402; 93854695844997535901; 64256608268788127529; 83946875662354116068; 65246849512221766922; 46412980661753181085; 35038482979031622370; 73826330639212619454; 45768094532725937911; 72127836108522512686; 65725737430125959114; 38043877821972184450; 87215737573609853654; 78646399625438644543; 28373200664987024708; 15002761382639658059; 42816269520316110599; 71221538702603233770; 94279373424789633233] 2654;
SciE false 419 [55261515670893752421; 23446612911038415944; 16903059048915331485; 30785965910721518973; 6606389083924103719; 33886487843340270678; 73743265815941981452; 80384372491038327870; 25513909972412281237; 63510764461025135072; 95935860052516475361; 79963091671989718135; 19543209817148819938; 20630769464646892724; 41318378975103758799; 77510594596188374048; 97386374018299531742; 15041534912147720701; 11836861325540687900; 9500297484228441265; 33249631175110625692] 2659;
SciE true 419 [91438777966580011193; 40321863071889952097; 21659344223996652855; 34427020980251061401; 70271130808175540780; 54110906178844784351; 66364029925325595668; 71808901044993989114; 56196479775699277671; 33344578284890837346; 84486044581055550867; 16782721577520895421; 4525925680221024824; 39203522825682338466; 58384873140530798597; 93373010579126992539; 30384422979605009963; 17292857940114945644; 52413306303332114852; 54416809771133787814; 47632401258881112976] 2673;
SciE false 419 [10059328283883398764; 29872626700726694878; 32859742349364131096; 55905178206931564651; 18731822133401806889; 59952644183321945418; 58411580919972435782; 32577409781313428058; 46230036219769718101; 59827498179699281651; 21516330387971477906; 96057291246629358147; 36825667747639286126; 77425343369095830726; 37568076605295855605; 44223557994150284323; 12262468414279114421; 68189435212887382095; 77708068383479339631; 60792835251234053147; 91259619180453638107] 2670;
SciE true 419 [29892399832176726335; 81916148306481694890; 85942414239088624341; 76246305652086457291; 54325159803042523649; 95917818820467906167; 81073584275838013462; 27307058164758677326; 28966696642947442445; 23516293543764314826; 55390360403902951654; 18629838818572982289; 94504635347644876793; 66735779812843805221; 84003448800325953356; 42383088969036909046; 39058059165715701916; 30315941792149427685; 35280781637749849091; 9242720136766047044; 7653677532339815430] 2673;
SciE false 419 [13525933695323552753; 18693890786689723676; 4286139110609912437; 44643067208505072519; 82839058650368867303; 31039660289151312557; 15319010365901819922; 82126490741206046829; 99804574718654965747; 57685533500586039775; 31378754500721143544; 47098747791762762559; 43756724041069054262; 47480056140748515790; 88718959166489000364; 3123780490388675165; 24996101894084417793; 26958915176379229723; 60132680530585879241; 59100476478020213735; 77334381493277566827] 2684;
SciE true 419 [13554054795087246264; 47267105233790803593; 62328909036958727632; 42057890876107923436; 99894616344595933401; 41972140886329901457; 17740263401170357878; 62866805787518014892; 35484245701869757738; 77328739910179510898; 14576925778664193914; 9289379182368584245; 72898564263996903532; 6592909646052249405; 90886779719035928700; 57636696010697027557; 3883833967773533798; 45254088140802138336; 31002704983368899740; 95183545446585472455; 52528928539115731820] 2696;
SciE false 419 [73004065275940637947; 62101303035339361302; 16265527902431416776; 29199932083676035320; 72648739356185068016; 63491664048911750539; 95392242875142306635; 86212203976503735619; 20265857551234652895; 40188370027258757527; 3461257203052897295; 84771057576171914743; 91567640986314583538; 78711910973346545665; 7539938833890241817; 91030766330302580005; 20923460736466060852; 50001508182375331576; 20839228117399548847; 96244788756716306136; 31892383730251342609] 2686;
SciE true 419 [83484897784646988035; 90972477421781350077; 49334853780742789604; 83890826032905214824; 96791890942196393241; 62133980948840902274; 65126221976453224749; 37185598905390800906; 73447480061853960261; 41647403632756354532; 76219997840745087569; 81276444336123625539; 32273045134429844138; 75088313238152666230; 6923034754038336803; 27247719640322234074; 53102109209157790207; 19519712633694229329; 79415065717929961226; 84367797077626086077; 21515465882204404808] 2704;
SciE false 419 [18226949699297957379; 38742264751675258216; 29079709999502392969; 53936175286714525172; 97264497007631601824; 65924508863427267190; 39962404854351192474; 49836699780989326889; 9581755827687416311; 30301560807993840552; 92017290695528286500; 6653361731654923531; 29124239704410913073; 17582221446436239077; 14659085682240549689; 16051613079976972733; 24492374444122079753; 37438612830999415356; 50511903590377444753; 92602648260000199118; 8587861524536118661] 2696;
SciE true 419 [79154111341224911286; 90995726401831969481; 48928712445470803710; 81215415341823209951; 47602107395009046030; 55496227059203601066; 91693196109279502890; 41038807135780370203; 73197324043539455663; 10605312285747428679; 35871275596233287535; 29106793286732534849; 99734382919452494882; 12176558427828597641; 59256465140232297870; 32505956908104918235; 18451573388434675322; 22075022115513811867; 89784635694674334567; 16589817642769479061; 79112809951958923333] 2711;
SciE false 419 [31092828697646321934; 75725535233791856302; 77643293964552356146; 67859488862144203012; 54615469996220935513; 93035424685480878395; 81776508544221332753; 53596948508863141354; 80447500759126280723; 28569759644203888868; 45193106112844755622; 35137746460282108497; 82646103443076949113; 18318116308574552043; 53100379132907152509; 44280134205017650708; 56591618531360448059; 75289702770325823560; 17289186788595248262; 24678973143839809088; 84796316440171361142] 2711;
SciE true 419 [11614308503120203129; 43618686415074561319; 59887127170147358349; 8760894925626926947; 24173309282683202801; 45038142615511661660; 31342927687636115087; 18616271228291366408; 87339765801161101619; 78847238141815205358; 66120105254462710280; 58894974684326093181; 90156954646940774046; 71480100049906323267; 93395583106838180131; 84223739294696065587; 31348688640599205798; 10945124324036204046; 32159220146581364057; 12355378604660442455; 36507231284761995683] 2711;
SciE false 419 [11755881182593212951; 52759439441209351400; 94809612167125457499; 31561596588107968824; 20382484023471140213; 61156056054286517009; 95725658649910978338; 52652645963911872319; 28469799761488885563; 73044213529683818569; 66337638576513002715; 81134019903215317583; 34719793653933777121; 37473591352500633365; 44550090544428129390; 57409682679427209099; 6816965754339263180; 78160419036070273006; 41933896304221925214; 43390887514465781376; 43878978060467502099] 2715;
SciE true 419 [19247431217867708998; 82419858814005265701; 77645466162230268789; 15992683508878874684; 12763747859265409529; 52575891399194714745; 69249934428623999746; 55743646619949116459; 99217134495627842382; 79664416496522028318; 35795178523292380202; 89766453025215939291; 79620595363612178897; 15941035720483259550; 39334917520018333422; 43783880753044181304; 31509119184262206188; 43982380583390277732; 34124606355310751597; 16110031935556321549; 31667485965633835993] 2725;
SciE false 419 [30366971989214780080; 91389337085719924268; 35408233613207327072; 57715099662752174680; 36915085636705454661; 68029820546244570503; 16123592588548399004; 27649043239157790743; 84620429537212948737; 13470582666586812728; 54539908538319004271; 81190918784511771194; 30563589947027151703; 98144048786214092508; 57309206546540452066; 63009861775446008764; 23954606003584964922; 82477548821626189005; 73790271406525448452; 75780840061076825454; 13380739286509372810] 2724;
SciE true 419 [85246229997427379275; 85562210944360111979; 92897235600272420173; 28155820535408683422; 75681011482964108981; 88586582823962055719; 41840126745307233641; 22113312591160174576; 62276918701965214275; 8939047525836785840; 95500188283718867829; 42708923522905978120; 58014633241615166820; 81335333142345944909; 63617152913289174217; 62548526753780847222; 73041507498137958843; 81188841931766707416; 46614715498171179677; 86274763324027114154; 65126726077065211445] 2730;
SciE false 419 [15014226756730956402; 13662154341161571684; 38969328232404815098; 28269972939470526342; 41059988213561376042; 63409085979565253281; 53873943371374628452; 52195848720087189525; 82262318971643113486; 24160708598824093245; 74027219997593131732; 78839586183088767361; 60263324199278303706; 36773451266899373877; 75034431148806405528; 97063773543202195989; 60005878232180592377; 60204399259098353298; 49410599108648721512; 16984266019286395130; 44239335657251847876] 2739;
SciE true 419 [61954597372364839962; 38156528804216952094; 93185931638563282769; 97659018845760914446; 36432269115582768647; 18345083551561041212; 13901718988080322337; 38928609301362948019; 88045949151431848052; 18285189270778141185; 38786876871346239276; 77580895121989412789; 78258971333548256473; 36117191055380909230; 45994025844613621765; 31912451821502413114; 5835187034439608343; 32347921587741646939; 11370797040369023000; 1778554208192772933; 73677645982860577762] 2742;
SciE false 419 [14057175484981293479; 33782499148271842840; 61511689022060470401; 13096900222191251772; 76834642654722817352; 7823563503883106121; 12659659298752467556; 62081850518964092213; 41577215109579889062; 24870000797307395331; 76756428411293362372; 48308399432711886836; 37234407215946213732; 57121238832111564188; 54568136997398746325; 76473217917981940262; 79157704017005170521; 30264155289005201903; 56427672815122539194; 53159588583019726579; 1421241242942326102] 2748;
SciE true 419 [21593044701092355084; 85083021095211453938; 66043241815524236717; 79808270170015209367; 22597701265285800546; 98660218293093865328; 44748786788751551067; 45764584396949409022; 92967941085426992537; 12139049702960460377; 71935189635182230931; 81648879197582187040; 58227946170887913558; 67619810522465741740; 85906472829505563992; 97170024599188278209; 85825699730153980357; 36392340136026184044; 88170660518360795594; 70255440276400638817; 77837351699054042872] 2761;
SciE false 419 [18559617676222750062; 58366073287553812847; 3535832488518476516; 52478865956645979450; 24248505304584179232; 18494535266185227129; 59347627177265639610; 53245785067262137123; 58250886453738786129; 56611694786339118455; 89262974304679939913; 12721850121895317602; 22566455197003951141; 38509484131354466787; 27203227372852270909; 35021547684229746335; 81683372647765182604; 34683092225701208584; 24689500771236195809; 96159693717775972961; 87931941362148498487] 2757;
SciE true 419 [74767139796291405987; 33150225710275295529; 70963795690053210134; 91669189554958760942; 77327500318729568595; 47170036465344278884; 82485273505882043792; 98660093782861790186; 97557067212615862192; 52060598970077530272; 61492969313495055284; 39015508509130731705; 84768230758835262205; 68703295535104516509; 44918647499011121326; 92310443208777188241; 36191667868509003527; 12294287026629843779; 51152291509006604333; 32194675708524258532; 8096552485605051052] 2763;
SciE false 419 [50730516293932701422; 66246650656258695161; 14760993263757330429; 14213770714330554165; 90968703386851161801; 90392329552631858662; 46900864980246963206; 60561524847045946586; 61037305932779533467; 69503870342762370824; 25625343464823280884; 35868350241965146412; 37790750741571646442; 36080434369042004857; 95138234492866882743; 11899379679930381010; 27576924561208654264; 51509378215767878402; 54983097663409423491; 47531914690818336369; 54845473071523062304] 2765;
SciE true 419 [28391035176018521802; 25939880112258728865; 96942333402732825124; 69943809348952994952; 81981506233579447246; 22455655838128574656; 1744795589896238107; 92665272858433968263; 582962308490990045; 84783791988927038095; 66729920324250514816; 13489598542568390066; 33657466647471055716; 30184942119673768097; 52807986064382657175; 13541952349942162657; 71069549786840783672; 73831754766564186718; 10345011527152888481; 37818322650558881567; 61953153313893984718] 2770;
SciE false 419 [59483846530873865713; 56996200344329189120; 24419638334213256011; 7839138525663508932; 80853651098914194561; 37558660759065480280; 48765350421378431137; 82804808296872838249; 35589239648394970433; 19112166173552654837; 44805475829822219225; 81276103986223043103; 76347334342785119870; 96479954274467219516; 33664344653281490344; 85007291852015930893; 98761209501267342493; 8736563046650447980; 67667585904385884941; 73474170254647405490; 62115355689229679831] 2774;
SciE true 419 [31079621808191585354; 81012454758681149657; 63470478554863242972; 4547224783277940681; 16040647901484767939; 45045890797270405704; 2282574417706053240; 76074078865880531866; 40269433387447485053; 94170405520016140211; 1101940109214083358; 25989775836658324000; 29375059812833438714; 96534729739570883892; 80543214756857280974; 3138202456733163619; 53514261365228405761; 96687765002542796404; 62167665499485751624; 75180846189505630515; 54105386466219438512] 2797;
SciE false 419 [11420136748548714822; 69925970162176217267; 69698553170009025047; 67676862213651904967; 77801878984187767355; 99893116276912685586; 24347339533314147198; 32779240740653055869; 72621262609824192133; 67815605010457521501; 18099218426841503936; 63496128947961482471; 32896727798804325742; 20753504002627002851; 77788257520003892387; 68230337553509614609; 55073828664451992923; 99293667927797864859; 8092670384292695180; 55311009535500058335; 93093761762921546966] 2781;
SciE true 419 [30138046337539219712; 45541601931988208748; 76818527629936875808; 60840350278116745978; 18816996938556367953; 60923414948776529230; 28084135168929069568; 56417077185135472384; 30584149658183170324; 92729727014017782309; 23205492872411760997; 31666419880982866028; 16461600023520108168; 81257028509877827234; 14219461727895924507; 31371325459369051622; 21986760994057575206; 24071191010351811446; 27171826499068370560; 45673370459399704791; 13512031943635622317] 2786;
SciE false 419 [32313802510332326341; 88323105497143823669; 4382240485783659147; 6192854928799866118; 39134454117211590349; 23764004972069961268; 65247005075006559767; 9377000051765762246; 96337146847177488525; 28666679565228728255; 6787481545938606465; 83475383074086509671; 95505732266186695505; 91322350584802934594; 12334568167796566026; 27145885738512729961; 45953357352996484862; 20547037558710081694; 81703224910316954211; 70386328119890000910; 51518831606298093871] 2794;
SciE true 419 [84658166002574666060; 48254316705701456498; 94979765247943811100; 7578533665817621188; 47989904910583866720; 85105122274656871666; 29257507409675309745; 15575587314813287305; 71358350710019111556; 66579779948384711551; 4447589516827453612; 41416173400903092611; 56912355314750681748; 9549464838317047290; 40916192950005713201; 97374355176348076837; 69970027983162863052; 27215030850768698288; 82875932116188438719; 59807961210350120458; 35251678676037494742] 2795;
SciE false 419 [84856987873219528546; 30213711937255023122; 52131474856234562034; 62700861119975820921; 17197248896569509717; 27699204142689117304; 6582216778717760377; 68878841536061973171; 30865684358367531589; 75046894763129348886; 40856905626985144561; 84653535895779296091; 82188278665965898066; 88953146511630882096; 68363558844041795866; 84521271655442457192; 82422672609487974099; 99193994135496976449; 28549349940444197808; 273585491454484193; 45939365345806696289] 2805;
SciE true 419 [35617534623392143702; 78639040517440925235; 98461063577895064773; 87207933254347714947; 16217107068581903181; 8722456385887930610; 19550116525673502250; 21902544027853653627; 85152785225593937146; 22369025366604321560; 40459119752636560484; 74430119498594020839; 42790753157511158993; 22308191588690573548; 55679995031501057727; 88380414103410300531; 63510488291834313265; 19331864707206831318; 51744386836389766172; 31850688313448185124; 82738087936939923082] 2816;
SciE false 419 [25734757410729719442; 82821677515535362466; 71595207413731605212; 56457566842011627060; 92053601555601116835; 65772553074992217860; 43572669578064505942; 87815552909917269540; 71237800168198715566; 11595813028047262760; 32770519447314037118; 46742226220402186501; 94578620949602375306; 98515835497363758915; 46101067471115251636; 84498808179897585077; 48524483025220574396; 29339184282397745552; 12760279152586132822; 31816710473997286251; 33764298676536796861] 2809;
SciE true 419 [20387123182048369329; 76395951267426207754; 58282231227240771435; 74864708662334986688; 97755334108877557286; 21988532154008097457; 62751962103458356943; 26190671343513777099; 47328941462491586254; 50628670488422418220; 82937218551691164424; 65495088989439778743; 57703542634885455625; 11893734521529318911; 94277343834437321141; 9032539744941196411; 97593946891008151439; 90999992125052591505; 46414938282702313358; 70643154730044380340; 11960562793293136065] 2821;
SciE false 419 [11446311162381312136; 81258567074988150513; 85099523668916028590; 5028837471146796772; 39980670777060780038; 83977206383460256844; 47921642178235299563; 57718655993029055657; 74187496814975596601; 76271524733814944750; 25062561203633373789; 13936728022962290214; 58807224774492996594; 61936590398660259316; 32632841290560884184; 42399786703078843088; 29601781335672093324; 28908860062637889418; 75381494903325608066; 51305325912619690761; 93769434075265177326] 2829;
SciE true 419 [64613128576479757801; 43983524525793414805; 57666788409519498226; 52017020373779987309; 30898850731659231535; 68271737259341640038; 37381822589178049956; 4516048024879361810; 18812908009400796953; 25555439019198339417; 11502860026486051980; 21416250648840812190; 52626337329331169928; 72702420514729266699; 67842400339033666088; 53885407247500061309; 89596746229475706033; 49729598697206580951; 83556772186580754519; 40334853031644351433; 90431302162535617367] 2827;
SciE false 419 [21693434363628077592; 18140501744987315792; 86705217576059046002; 82849493914991627306; 73239761901962558555; 15819293637057774161; 20183276441417364065; 72823424540883204276; 65776626239127428085; 77182677103748584513; 47771822135328073671; 20481720745033565275; 65861524716485638527; 33737434805292830155; 36627361301841750437; 77462341586467522071; 3420325619988493526; 98865522651414384563; 92490365789274197967; 21485912670517430728; 15622247044648191620] 2828;
SciE true 419 [14405734746229375784; 37382863771316424826; 68562770959641783570; 22717286049718809097; 98123920650228464690; 51103861784118685475; 32847519433470703546; 27150921286726150613; 42329748056267707495; 45483166167725020470; 88043370662535055973; 36026111824726393767; 80230109141937206863; 64986135148588385165; 55290125121194297147; 32473494948759228014; 22823192925510289570; 36662791374954745444; 22544953746353447397; 24028661555043519611; 7582045274032445397] 2841;
SciE false 419 [64027395581575473866; 15286578297023584274; 17980854653174218294; 89855878610933951215; 88603710472647312191; 60368032289039267380; 6710348166922821429; 51649078494246034886; 28960560475682200141; 75778339721744844473; 14610903176908811039; 76528315447968071750; 64674675176508215623; 57742461729653167209; 20900539468774928762; 9611884028251836479; 98157671729912158209; 39387636519569199991; 23905707829784234830; 52696191376090402754; 25924489985457320940] 2837;
SciE true 419 [17463539610546105739; 20419198117151217925; 51299168455673018512; 73451768988769209059; 77124174496670355163; 67756583305085069375; 87465957383964513385; 1744844893579964423; 62765323647330960483; 64514798135911383342; 18211214181426122057; 65894010107271085676; 52166293800616155026; 94916875434690355944; 44072301194566268596; 58393934699659040348; 86595584440945211193; 34289486314473700347; 53211085761613135130; 2968151206903961227; 96033964258929817178] 2843;
SciE false 419 [21217661011552919762; 84056591657580156352; 362244296701605282; 67199478739678578333; 17545647146820913358; 35215877646017099468; 37926616219390442626; 63003715371471223140; 20796546515683300530; 18951188104980499374; 73099514862082066344; 28085834788499356442; 2154405174619272965; 68028899061555879715; 486415551714422216; 57424660696190685660; 3837883741425011137; 44727361020654757561; 41277017736159600075; 27643430935559648146; 76848227896163476835] 2862;
SciE true 419 [41861924755326979763; 42326708750123065182; 66205380039668789131; 36443084997587089566; 89187301992848023426; 99028014508027821486; 87235003297389328613; 85955541260245517050; 32862406258529666991; 84793929129843669977; 18242281788278918785; 51439929011942863858; 30662872593536380617; 91450217693773430720; 79650157203618168782; 31372429879727862095; 8238365300199136862; 87146926220282649700; 16827817508917621283; 82787453645154122028; 65099402219241279437] 2855;
SciE false 419 [13254725520113677540; 75009832308262818537; 41823971652035224913; 86298918897240389847; 37608110260950091221; 89273866026300724370; 3715217612112994116; 10624577302300541832; 31669751009918965334; 21098778444667621723; 30469806534054746210; 41926798436590349696; 50768811043919666825; 75095458816014905538; 45603282468496305439; 43208649195593607460; 17078665412584856395; 6031637359877842595; 94017944662234959280; 75981796502342525380; 7798902779964427217] 2858;
SciE true 419 [62352058551775103089; 6533478245002327639; 57840872969932513465; 66020842249414423521; 82825607471117409285; 47408442693199728771; 51627420198691213059; 22786121937680498559; 61632085316882194626; 54234780033542643960; 80506799459572524591; 5655031881474976654; 76854929313194106742; 46392721933027960496; 89274109292466136672; 39856123698931337430; 91327269823617639936; 32901943726175384340; 53536047761533503642; 88081279989155578927; 72298994552094466239] 2871;
SciE false 419 [17573438120031913193; 86521945702172267434; 40804320535924071397; 50230330025708166731; 67034531146615896468; 63088658351075288756; 49664785961970193268; 32359481591912690138; 65527260762119297983; 48887312537759777528; 60537163579294550573; 68018941005252490534; 20760955680031055211; 59631520019931078075; 7819264337374345953; 33023819582307702170; 73994694043118538161; 24425952636269342990; 88030169167407044109; 38218316426495298655; 36825032134486370159] 2866;
SciE true 419 [48485821946691494933; 85231686255899020796; 65675087510524751846; 71370985509814154877; 84990325399330050028; 32945729503220611083; 21057346773233990807; 17259637671194178472; 75523486768908227144; 6448715255465159497; 45624030181706186300; 18295465746204079559; 35884076080171893444; 31357487972617107094; 36734261447193634405; 68648923790250792895; 56598010522908682586; 32607479027612698926; 93344830947737053053; 19300619912069141376; 92456544910281737464] 2879;
SciE false 419 [44425947284237381904; 54108697034271204683; 81894163126259725690; 87459674857032693785; 96490565181101416110; 50919440129896770366; 77888914687873728967; 80556317259772179938; 11112106962904247679; 82896330117510642666; 65956308115145325286; 48214610669197046647; 3588545578517342691; 61726206510751499749; 17430035141328180549; 84063290812457980248; 27134074532055921734; 93934323909169939782; 52895073657218890329; 96484834344419998165; 88484695395190328125] 2881;
SciE true 419 [34811787478005768803; 74327574560665229773; 26698372823599314147; 59110047154406992197; 66012071470423580869; 45149480631473094010; 98062681222434510088; 96718017153696453340; 57580441264121965624; 87190114453610219977; 33882281801214450324; 29161903464630375391; 36598739310543710701; 3849988390391784032; 70121091063494140364; 15570920689551432086; 27845614956245007483; 23662347447697655601; 26386519166827775799; 20713599106500570549; 13785293900794720686] 2887;
SciE false 419 [25100491449855550447; 91789966741788453534; 53855604205643450612; 81991660253595011209; 52916589044947361533; 8303040879709588836; 50643281936768979869; 87654151635248667632; 85444588745334062570; 37494973213397007429; 88947400483391353947; 32900517714929547586; 65878878679668744711; 50464047673283432495; 88328372664309361412; 14333755531202037973; 58301321538348343408; 58616891439006587; 97519312506158352266; 8095276104605962529; 14639080086379196211] 2888;
SciE true 419 [40643328443629698139; 22908981767301961365; 67142482567089376627; 58260113535959188014; 66126059823805365280; 28839005927190218106; 70937507768344304950; 62466444298831146975; 37269580725602029205; 30894163582069366114; 70875292507704042730; 47285427638555599301; 36164641430563377904; 74528615014312744320; 64721188686467051922; 70919849139216628362; 31363539294513994435; 92386481292861268356; 10834990947569855280; 39979361139737376172; 50939534728783002394] 2899;
SciE false 419 [58484305070043109403; 99628590792815357571; 30244755336638069; 68460467275912385324; 46198936582336730973; 93488198542976430389; 20958232639616007465; 63469340727051497073; 2692073420348768760; 26720188349284008861; 35607688830784581892; 84750118942896920540; 60501639778830666607; 41804375310781924683; 99568508037560585953; 34042771171566319650; 93306104232770027666; 21674545200189444176; 22282991473553772552; 39085332076802696108; 12531058101084518477] 2895;
SciE true 419 [22364705854956047900; 86271262304431866488; 58542137979203651850; 90377266004899755411; 13921061742355799431; 28472875903059675754; 52805078152393215901; 93216686315296470994; 42163826378862390835; 57881131135573217719; 49995228098498286691; 37440103564049815502; 55202462940565535318; 51674044893126296354; 67598873375374936306; 74108581275140188101; 4706244540148050171; 92228077314987295679; 4690160773545235454; 74510762939588557377; 61609494467576122030] 2903;
SciE false 419 [18760858366039854469; 34434364561037595395; 94790909710626251911; 89745961830327405763; 7009764607484789919; 78743877854781814714; 44059953314628896371; 7279099702930687949; 60695998583112862340; 67015920022648023868; 44494972749622735734; 94451694175473988259; 38166392945609561480; 23812122433829353053; 56719924934698438355; 80647614639500666673; 74557543010317832528; 11360120025748263364; 45229128845935541457; 21079274182899551696; 54030721444879633515] 2911;
SciE true 419 [13446384032679399322; 36802374206829120703; 77105467362329282889; 48609573763923142894; 52347668460728951139; 23683174699763365760; 62646206754728441122; 79453122170454998437; 93303485929926322775; 74475381087891662488; 34233395431699832953; 80436180189789784174; 15433614479723500406; 71451509609754647045; 39610183066953714589; 19369975776621161176; 81555102238304191496; 12141880604600355401; 77986424744893553754; 64347030989087125121; 75832715763282958056] 2915;
SciE false 419 [81653086607580309681; 34017966169413516035; 57628995981095097773; 9786006005559640000; 47771688803692832538; 23453082892610109823; 84728929024276668719; 31852231223536149948; 79119537953829844106; 85091165813708988053; 2073936795035548813; 1476809303987151360; 82598253182480006986; 74931597224026543788; 36586922815099844027; 51453652259420558185; 40206200005899724922; 20546199544240296736; 8453836804753767306; 26656130877072154657; 65408592732823444947] 2916;
SciE true 419 [84413463325117678240; 56358735844969973916; 44881692668058299608; 65951910507094103920; 77861123493139111559; 91899743601779098700; 72098980613809041336; 15392279496751255787; 1595128691388530825; 80172329716471578383; 25554246424766929282; 79090303820634722341; 61301037254090188236; 69759550186517914490; 14598703994666899369; 74113099314304101364; 87008049051527047239; 54184623293464780487; 56105532897203819065; 37959704295973304915; 42628173033953329095] 2934;
SciE false 419 [17717197110615173085; 9657528250005583251; 59543795117740061990; 94382014520296066936; 96895001177980899042; 23736973709683496122; 97508251843740410218; 57958678905843632652; 2725617951379647480; 74746737273257038575; 14589922692864478950; 78098249975711681009; 41988247708885742241; 79554690831709654250; 7734120354579212169; 51425749425871858576; 26754098481296117041; 2585493857458820942; 22030287735495840969; 60303932579901263691; 20066063077299598622] 2923;
SciE true 419 [86230523509931281187; 19480115620848407546; 62234291409889913973; 91846285284880356528; 20213676221743407443; 465372095853335222; 60925250010428718326; 7599151828804498915; 22853953965605264739; 45772510416918347648; 95704568128852934814; 79932968036245120005; 34859645110789778928; 5355988010215446322; 80855955746095388802; 88719520751871123189; 50051001449625636338; 85965123982536237107; 19370218819503193776; 78389977374386859926; 81356402436149810315] 2929;
SciE false 419 [20507364806181819603; 50874437865594098776; 55083902918773015612; 16000679531531020019; 33811611452729935154; 41569496216728859049; 20629866593946151144; 65358933007005835655; 74435630776147608157; 5014198139317360817; 34414145794704098877; 85238451811989590104; 45125978255176963523; 90804198697430575104; 78039885518792995524; 46340566905343786528; 39619270825183600239; 50289510795040909166; 89693154609395318747; 11578744995460473983; 13660365873972921498] 2936;
SciE true 419 [52419946673769298047; 29344598636096410513; 32576346264265499467; 24254384190847532355; 20914542561946381117; 2333417901449612913; 93638138656676732253; 8747758829188077945; 21543388717389439592; 77169261632899173786; 17689766891622774040; 78895119971812017664; 75844065506215661591; 55731681645706349762; 84296897979146650110; 24173828359324832995; 84970017087165500427; 76511352088390754822; 93214072072539187874; 95249604593113992782; 69988243988957944960] 2941;
SciE false 419 [32163424973546728401; 52535395563131697651; 6078734373340376444; 73132925913826609785; 54156445943122298880; 73349804569744935729; 16201044588011584022; 58996639729526514515; 43831057392286469254; 58046026088737882323; 31773599633740387469; 40810489029601631402; 16187741136128255719; 68391412872049815245; 40685569042264010157; 39809953114721712330; 43670068470376261647; 48210150003314125701; 5150978023893053258; 34468420257195241532; 10804472730168759327] 2946;
SciE true 419 [12950394611593913556; 32620185372617247581; 83158823889085531362; 81064958853227257907; 45969582442436239606; 31076914070707249825; 77967629774797706962; 92245714529443259032; 79240435982083767947; 53586314589029413067; 75279869459846363007; 37695480207197244148; 37990509479207946072; 3829193522661543421; 78658515473688560803; 23744430852146009414; 8373857519152079714; 68279103638242115922; 28095485612084305308; 80586834734094076026; 74190657172726379074] 2967;
SciE false 419 [64978057611277093359; 42656124341838432264; 31600868118527200749; 29550071967943606487; 79168964393458473065; 61602389041006686540; 2276318968834266814; 34015555485989249264; 20767583372177054075; 44178031343930481072; 80876442755470219622; 80193997699782451451; 51346621499280596706; 9960725250081386508; 99532994969489671224; 34807042941302798604; 79996356172452312589; 97319380181968844148; 40564177805892958376; 42383247433498221876; 83047662276244491498] 2951;
SciE true 419 [18901176021509588595; 84811883181605423187; 16848460527807203042; 94774329733216672064; 69181120900169143704; 18273997444459314735; 45911029639045838885; 68778428775737475689; 50637421114614703156; 16427554479408460244; 75801479896093990495; 5823511891964457917; 10096561962960133309; 38031458417451333274; 93941410372988353153; 31150393213258014752; 71231433308909331549; 8657230658468079608; 56300971635355965847; 67798255036205876602; 57156969974240830306] 2957;
SciE false 419 [15539240017627577247; 95490435351346650859; 86796700115999974022; 75036104908707949866; 3333653665081362956; 74083714405125540651; 14490213995219655534; 21859255014825724693; 66470431236150579789; 27072422183483569336; 29576272877283409488; 90405656079164058214; 10646001992009483821; 33095642355849236086; 61017005401643007177; 58903188286898237292; 74357454073105567444; 4957456649964052542; 92439072268083641335; 30151350474071797132; 24138963983370099994] 2969;
SciE true 419 [71857409169037713300; 71721934196548394168; 62328323278196133113; 91125168204306102966; 47614965194086702392; 22332121643637992575; 49880489329365677051; 13783836965492574926; 53075406785184449240; 14715485958755784370; 85400025476705566522; 44807463193010194400; 55958187137400410217; 10762464600551563312; 2300143866507006905; 67054722835995898673; 62621976221832336666; 81850329661570254728; 41042580802109352151; 99580870519787965912; 17712664864554708786] 2975;
SciE false 419 [11517072376863716031; 51548677165720508637; 35359003940073428603; 38664968168903056535; 29594281108670235676; 33432733127841798538; 48525350201094214874; 83381044581807794560; 39977495089190150749; 25435681677088163718; 95112770783500785681; 31655715029730417977; 74706782253135697893; 10472196391058890124; 98352903368852611084; 15249542203967708583; 58486387802589313846; 58993430989447750831; 78639456163441913407; 61540098939840622394; 87955844720929503884] 2974;
SciE true 419 [10296663152683789881; 68317890099207228147; 3356605129201939359; 78304084668701969350; 22198181726469078511; 55228267648443490442; 7949976462711297917; 45423876743858369701; 8490636202663977589; 16468487713601929101; 99205998367144180286; 43521089739862425277; 23200247022617195711; 73509765563876665145; 53852484293252608392; 52175709088603064013; 75222975357682083661; 23852540252932597807; 8088374953992493720; 26331341326011067739; 69260619125409606472] 2981;
SciE false 419 [26207884550807176119; 85939020516693533810; 44297990090683276202; 8743435424100823069; 84652818872644698525; 74952391842930921194; 69501884851755154655; 36711644731859684552; 56505954659975382981; 55628124336884856649; 25156275919063488849; 96837570069798006988; 20634836751199212025; 60541107923478191868; 25714033426642572727; 27939213605196111838; 56124027218390118654; 53619027725653650673; 64602963278888137534; 33282971610887002167; 80237847609030678620] 2980;
SciE true 419 [29662202800300573322; 67203046786485320171; 5502195787832141697; 32918684485392719685; 70411594530479454573; 79112678442786760891; 56011096130224541958; 40440900300856848478; 64638198351882125956; 85616622521087427391; 3247827572085208413; 54858037656761588494; 83893574215883784243; 63895630359912618885; 56418460735922658975; 17228167529879873803; 70303965638384687907; 10983540340550670573; 78193831367075852969; 28672550799017851591; 52268051168515930323] 2988;
SciE false 419 [20152578052934138691; 3535408060459521539; 19845717747378964649; 80006166692260666791; 50507748017031688138; 28954901810737854691; 16278864638965100303; 61266061159009640056; 48435642403017540006; 97097943692739979034; 7462753903377941372; 13547886060659002714; 66811023084362076947; 63037962965102819835; 69966929726695251268; 62203412261120036811; 36272054971422044814; 67035758411403237149; 52835258850812296722; 71655013558024451852; 79784824664109879328] 3002;
SciE true 419 [27265786182790093663; 87518470285212553015; 57204751236350184304; 36885730066397766921; 92224463959976152825; 9124885902754209310; 96180963046839131125; 37468227120524905297; 91377136563772406912; 69515405708812329105; 47092057350032716341; 57255390277409777246; 49496731691288455502; 2298355816712657384; 79767555084652393556; 89242550826358844149; 30253471073266562812; 34009818223250317178; 86543131052988232414; 76880964012429478861; 44217280986720611978] 2995;
SciE false 419 [32482975015527513890; 18156762538618249212; 60358129798939125165; 57254936684236107748; 36198319486916512838; 8421157010862012469; 9200744182409722810; 8493123560664219863; 5939241409310980124; 76646725316099406228; 87423381578866410162; 29346401018222608166; 8388101132867484416; 78039527002959985788; 99773919972999948072; 25927945560165610235; 53830661490769168121; 54618096105066172688; 495896146538296175; 95966006685533221237; 26257416265812566310] 2999;
SciE true 419 [55519363857687747750; 45949806579835255110; 363831436915075175; 70392486076164742305; 14313209075320741817; 28718511093079921195; 2226357868839336524; 21910405513509752682; 73238008272281151767; 92814829494505524929; 40611112179429983057; 41720733489814371547; 2805510093784440704; 34382050916611860704; 1657475817285315978; 75996282438541674027; 7867590469580787540; 3757549231145687444; 67719945668654602628; 1570993837725562656; 64657027096668124055] 3017;
SciE false 419 [11616254626409254819; 10349459512423054794; 79652625952583451935; 14558748825463580811; 8540798720415243967; 78816342884568117332; 53076607646587379083; 35340140937385298050; 12559587658044990241; 74889738680783096978; 82290496599225201323; 29320471029306082493; 44691552341047932950; 97471121991411856760; 13160390871317271465; 80285855150525310540; 81525195401850506477; 34595862124949330040; 60931277937937798422; 79536326032098027307; 5554707374433644981] 3009;
SciE true 419 [18164046256625916498; 27952172559516790255; 53506264205613820164; 26473211555785279293; 30015354932581683574; 31667223888783295006; 15358505985858355727; 62864928282870958447; 99680999518281418170; 54154735265814633296; 7947673255883388125; 32704209116946908817; 17028715342627040942; 88737284196904102580; 36827794518915379921; 99922935215968569440; 93019676932986689477; 18250396275618277418; 24419349816384173269; 58729893042677326086; 23202067296331419758] 3020;
SciE false 419 [45337437393453974963; 89091071689452228927; 4773829666927973330; 14441206942570369330; 91415198639882725520; 98356892128019180301; 36517265069704837591; 64641438680519181463; 35173504650535299674; 6890560373112298369; 77027160832663079144; 265506010667763386; 48134832456898506724; 99089350452251501522; 36484731323668842059; 34537334375792240943; 12462853325069157621; 62292886861341369904; 38806884787690261020; 15217770763251455455; 71115630787509270948] 3022;
SciE true 419 [97902996953605567819; 34239995438470361039; 43468380007326672327; 37223509011950370122; 99649224291972119173; 94136442069212431675; 6345312668815073606; 29733783218933315505; 13347645352776789783; 8828916583826145123; 50608608957066056773; 76461674165194358590; 23946387039420600610; 13524212970569898414; 29789010630118786102; 60187676967219037743; 77438520484905687795; 40716110381039435628; 94690360103458605191; 25349830760830976636; 15786813872325489767] 3026;
SciE false 419 [15325855439213475422; 29406326631395047673; 13969876144359603531; 11673417147982249403; 21927359097157531715; 94461561530922917565; 65826068828617414661; 88239819217559391758; 95076381397882024641; 71013991719357379167; 27780536364404944664; 92008768262427658649; 85081906993082588288; 47813809989353171165; 54136430027150863927; 1343045649040902750; 7354353579685115001; 17501916991870031614; 11374676768562064490; 43615968246080169322; 24965524992118135379] 3028;
SciE true 419 [79687554779762932860; 2697095707677110308; 72617554934771183547; 33566942027578799068; 44925884391185812348; 52529492417228586629; 58879717325481239472; 16372684779725529378; 99725183591382265407; 99737599989570942796; 4121570430729368643; 83901133618403536130; 98812505689685222497; 57263098938985593701; 13450859482796558720; 5403573098445954651; 27603145644135585152; 31757191250359005686; 86763309441867708172; 31466464678340396538; 52418564747292848607] 3043;
SciE false 419 [19342059346974791599; 72900625757325995428; 95938081283326890724; 33786924673375705191; 89279044481798497817; 3492433148053137287; 94272580271242568009; 54043666664399476956; 58755325698648416675; 15690659423886421099; 44531466251926381580; 49068821930116231664; 92888679599698171193; 60205422388872105508; 98700599645244408753; 3895459988871352507; 68479377240337856876; 87477231900736728590; 73991833265065327177; 17469931948177659979; 37154996893607537664] 3041;
SciE true 419 [17702450884063845858; 88200039457001228991; 16981127409547577542; 50794781543727449222; 22190782803935161838; 29489309488479095511; 93993273057826513628; 86704147620573984703; 8117305332840628405; 4854145925937548563; 17722364258004805489; 27367433409863633058; 81535889802255747967; 99305164955201361057; 24326557502177245134; 99071434276315107536; 89494734859833380869; 39033252061227184197; 76359102816568771676; 14269358103800287863; 74877489844747447980] 3050;
SciE false 419 [14145799801954141447; 32489225459683420550; 74010341133495780998; 41413543865442470512; 51903751097409441869; 56729201012217171203; 21998204763498641569; 58085672666625826324; 44730150784796794697; 50003673675357485191; 48163224070935380101; 36000488146988067540; 49749829321855209233; 76101979313301396513; 42024308650514859139; 44755006543210275712; 61639217280745105712; 81109587604784394570; 11806881320349919031; 64586051258628476093; 75286287075184397120] 3052;
SciE true 419 [64581243413925520938; 44743709670032628429; 73646533523942516541; 8818873158630694144; 32001778413820245476; 15329437933148917193; 27141892411987688360; 5875115379538422036; 76889989171255939805; 43211780684634503908; 57265348527572365386; 87846888625685221004; 29907267177201304071; 23001446874530850090; 56939807339144348144; 78627399587938253135; 53345556610509094355; 45896734533399733804; 82579616379038421027; 20792714997669713805; 23513556622699586512] 3052;
SciE false 419 [10269680556460600941; 70234013478409672210; 90914097079640857579; 12236374459558188781; 80196449713747070240; 73274154736201795546; 16346198858027993731; 51262871795805085276; 48285964859953272366; 19564072604858428720; 26948197561925525614; 2404945287930060019; 87988619750541796518; 1603741408087742563; 77809902389901617515; 26492817658809854448; 27179818877004732651; 40399650506952814649; 69116535917543326821; 74806872452464222214; 77171213364030840145] 3062;
SciE true 419 [26642755623750076869; 24724692861018221975; 64443847818707304571; 10250052385910987695; 54385017162601783640; 35942056154863831169; 48059387664349503297; 49701615423774860822; 14720261150793047192; 27884013681615244022; 86211985653876306696; 82977327598373744625; 37994082838264103407; 3241436312676073084; 60163856339331069334; 97397295182261995583; 55249989581475537090; 56718897842479430907; 12795505100422796898; 74579867193020280718; 60605360702005985119] 3083;
SciE false 419 [69453755847014699762; 43586025893682285164; 41635501131252771326; 6346418074142336948; 52235266338389955467; 26140865923346898619; 6274465068692865948; 27739231612079261056; 57517828121901374375; 54883885539045862810; 32509267845674304930; 5516189996117878731; 53723082345205286530; 29708206753450673563; 94260201168770442088; 4788459527578052714; 17775160722490746464; 43671446984644638748; 65160440867213153957; 82360333560265768190; 74275858223781139395] 3067;
SciE true 419 [43941183742453119580; 40326737493867550307; 79828301604165803826; 59992382519097095582; 53393201290604111862; 37098247410374214462; 59365644182815216148; 54300989409944824898; 18878650950070913188; 46880524141896290098; 6760143100013089018; 78499900606432847533; 87722495779109260873; 24627195703757319999; 768818867098534531; 35242681979020037114; 90109870897537009101; 58480651331210175868; 84268383092748354732; 53330623144879098163; 55512664049637534022] 3073;
SciE false 419 [74649102545500451932; 85039063155054170228; 92990392678020233875; 89651246404937396900; 76184664583573342393; 66534968455127007335; 93853773724473126987; 15233517477536332505; 16616350027263359565; 87257696834991241439; 75444822553256722101; 11731924845275931834; 70062737529462022346; 95567837619339489010; 50649110898567953548; 61910894714047833455; 42295885611787836967; 67421315107806900107; 15063168104525797534; 72457081910831812045; 19202480022041448918] 3085;
SciE true 419 [39643059498854531267; 63920659949848452973; 42779999616577522687; 69506097499843211245; 41615219468051990332; 41072006294946174809; 84793828509371897352; 28466036156984846515; 47090469443875995114; 25639450926867456841; 47820735857985182834; 65248103027714045736; 97289234032112115366; 10306673312014807002; 25842251798807210529; 31901651039102116610; 87288792548318097327; 51848389342824220132; 61006342724890478135; 71068122131009139576; 15802653929600476903] 3088;
SciE false 419 [77899971808507461038; 14476822751234439249; 77031430198804286169; 93378988144183159434; 73354095282939627568; 29581941851538380751; 58629102156502594718; 10755946703745561632; 55348817108422616644; 89486705255226307163; 64673804553490360924; 4545484144978103300; 78411394847204242635; 43088873805744403793; 26956602282202660375; 77135801364192930288; 95150425802218420761; 99663685303762505785; 9091352876880965601; 71093989670269725438; 22439340217258962624] 3089;
SciE true 419 [26557017382454734734; 65109530922730486253; 51817824231170713830; 55294333609811199402; 55440264763286957050; 3655255704106722081; 80033680597261115387; 87012227713875275168; 8980966005311771489; 97931858940286327777; 97682498933146393738; 53362673278349951668; 44286570356768395254; 61989611497443689164; 35701304147704724607; 39641809948793161011; 32551904760386348735; 81807565903615780988; 4723837865458796790; 31766959761108120276; 93604774973615807884] 3098;
SciE false 419 [17685247184098574470; 28323760714288320021; 70186678108905737432; 8578801558393357235; 68937235056195106052; 35000353293579147161; 50002290849642834194; 56080815493663620404; 39254439536335253750; 35945340055457197317; 99475380851121074479; 92367939056248358812; 27411795422051847239; 39496441304388729791; 7612809109720002638; 87831809120039592842; 17072720940665890055; 9994761326677339506; 69056753342283597832; 80251712773132410209; 93508623390678745260] 3095;
SciE true 419 [55597872488592602332; 91658302020938425656; 8803056821862873293; 9141508985495433012; 77393929048731232767; 66472713675752198108; 34719691163561687347; 57496985001324305829; 71535297139078406381; 75195757375849994992; 77161240219856537847; 70419072399621991289; 27278977199246345514; 15742909507725096022; 32774707053060643409; 96907669848479419764; 10483879813992552410; 95773145680563829233; 20369394091348227288; 60982114077926933311; 46150727246794447395] 3100;
SciE false 419 [77472450706274683981; 46039071293224264377; 67762872847206539443; 37377808275920504261; 45464635020714232865; 47154961134339017134; 57331830068146923296; 67858169377139279806; 20038226800436944398; 88812141741539471268; 98539936609539824169; 41544063960606432007; 65448931402322860801; 38040659752686449573; 22706692236519090001; 57488256549772663083; 72370526194075014287; 4483625621469741608; 77255724633314876633; 56042531499258514559; 98785085619170866951] 3108;
SciE true 419 [77226891872521065690; 71369795193240973231; 55812340390737384983; 97279150480767482181; 67639046517734966556; 66497272347113528611; 75608192213581087418; 90894508643425659270; 55751544078356507265; 31422571136281351541; 41800138858326153968; 25272577001671235142; 18871870328254942227; 55889885855404069117; 22845818244327269981; 86342216547219718205; 56404803640368107161; 26376845996739915504; 95448691027848721116; 4790119048204908605; 23401471797520371834] 3113;
SciE false 419 [10083980309789144575; 18762540683711959021; 11091852278079937870; 65728407795446365904; 61377524518979766817; 93503505771051606000; 51738892227305837911; 87112257599152081881; 12963365940045257255; 71269062637028721107; 3340216439314393290; 4116142496621774442; 22294751036990692486; 26603319788376014716; 89225469337881590173; 15467256499980376044; 80730758567780630082; 27346479672945093177; 37526079086432884893; 44995894525070836665; 56822346314926570156] 3120;
SciE true 419 [76661321963877442255; 28653751548010828566; 35483141981626643098; 33508277128009666064; 35659550665556075599; 27471474832106239916; 57979407070483730495; 15842319829933158247; 97644037093842148708; 46839670596139751987; 85998429661986523782; 63109111700411094992; 41158217561542693995; 52467630967450956591; 12168721202346939183; 85715354212062940473; 19521823942353440598; 47394088218294958001; 31914336491771218897; 26931329860156946182; 56254034793633398338] 3137;
SciE false 419 [11349436129695386857; 64952062347355853289; 25967888667753612044; 83834212336592226142; 28526884959268573134; 52900479563754967782; 16993707024788117066; 26871274900039688337; 3504458233971042301; 91363999023491071324; 24515776088028127680; 67348815217144423507; 44597968284543393593; 9434103642188972348; 86750630819263798472; 54023669797828141738; 15337369908769453132; 38709075033698969265; 94117732475178775132; 84208108960947817286; 95110990729140792933] 3124;
SciE true 419 [36225298903205811414; 31255662184596339978; 71183407372140016982; 16375164750435405874; 84038796558477662908; 17490136427504651736; 63787631739865028585; 4883338681089852155; 64726258470046795360; 47669487535154151378; 22977681603566320317; 87497480250700088654; 3034565015618956070; 69660698065378713170; 75051329552873959441; 1510758616417631355; 17593634209165814402; 3836615361612438617; 72133658842911653656; 45288131414168281223; 53064017494350952467] 3129;
SciE false 419 [11842392600992376951; 32082776276050985298; 75080758252294188338; 54091836713582088128; 81069467566099492616; 99759021378808729908; 35728011100922063707; 97519720393962101150; 12786618235726776801; 35385110900078235595; 30770719178807415069; 88396736118750856746; 62741425638541661769; 29186606934683793741; 87216531683993324757; 27602853817814593985; 41297170564678837729; 48768896312702242067; 84844402499052803469; 53041766698449884380; 25595609891463109493] 3139;
SciE true 419 [11854550474923953145; 69513006642112212065; 37636434001819064713; 35704070202647089755; 2343085003728894002; 81180070568539928324; 10344387154435011534; 74502447480431817102; 7369867540733396067; 43342936948593139184; 84629133769794715106; 72481637605795822922; 30116887938470932374; 7716950004644748502; 20192462134444481337; 80003719780944285086; 64047628346785757093; 87787456468687197497; 51356121706613433104; 60773204082665914589; 21567595621369989849] 3142;
SciE false 419 [19133795174677417559; 55028774029340093718; 27940960378038207226; 2872693888934912300; 75650570190755090670; 51481294488665201868; 13465589804723787568; 15992568648841954834; 30711408891537808975; 91863035044087678844; 50234514168725083589; 60465494395926187630; 99561408096736302585; 29458403700629494628; 57901311896209325780; 43016970334179602640; 92525514054118776770; 58409774180609496; 29497115438617634616; 48435825102602236651; 98206330041550495962] 3143;
SciE true 419 [25600780551686513219; 16245603814435414911; 56892226640326574592; 64130909398433879205; 75268801490739747190; 21934097407167618487; 28086013114374295890; 42384197191617023027; 95166929073752537915; 9655307650089951692; 71092670810929584593; 2444784380917946699; 67290292991602802149; 86194694411653770586; 48193297513347266349; 34667737361947421511; 32197654987594491321; 77046027306265666064; 82821001135451926599; 8664454227118549345; 10013140943998589666] 3159;
SciE false 419 [79754815126302845608; 77055880063317724484; 30492258638046226900; 21363616834719160133; 33799596306292218954; 85659557161909397425; 17890688583543762647; 71834432334971816735; 69615725079108297831; 5829230242643932371; 28500445024821195319; 94920627497598335022; 96670052753310373160; 5570772036356198876; 1471048378293987949; 28572436482682306409; 47513983086741818940; 6403586064050443806; 13333769185760114209; 75733149493079770748; 25965226759320385920] 3152;
SciE true 419 [12847486448530668933; 42288478429570947985; 61941927850453980085; 77988580438880169733; 96800522503490757840; 94309185605182194507; 57933699713865352246; 10413241348641793392; 22815975829993673194; 89636487983907351535; 54470460808663099622; 3785668291553143674; 10286030774641742010; 37858447016877593507; 79590219974023706604; 56760569936335871942; 20252219687224961793; 60670669904804856382; 83526808208515528683; 70120716166986792977; 45587756561860407794] 3170;
SciE false 419 [79940047365561575103; 53267374828456098174; 91687899945974908754; 32578366008436925967; 86366001516901721705; 5852782391666073591; 57679810255306464142; 96087066384319713933; 85499399463014455419; 89575289843152433672; 20302717530538248814; 86510745195553200528; 32654775614829790364; 61188164101217735722; 30235349171552559044; 54267644581466075334; 61872009662465931895; 51661558945958425745; 26115018881554732491; 98331962160534333288; 85526599229711323417] 3166;
SciE true 419 [10934725450408165312; 37381665036313059254; 34958600807690065; 31706106917598029784; 58361385370576548369; 85129262746583626822; 26043896979462753245; 97925196481480796562; 93222341584795975058; 81621741737397701149; 91223174863226454171; 65060998133966134817; 72103222509448032351; 58194218772106498265; 49454210944083900376; 94982818920453960297; 7761469549583456749; 46508168218274377527; 37788259935979562240; 19591790664107382927; 92508595943166270290] 3168;
SciE false 419 [52776724461625073898; 79286724687235460869; 33514500391660256840; 15995059058507516999; 85305610455651447658; 5457963070641027540; 54464754705299295056; 93224806287760678352; 24853989443252459039; 8553713392961966419; 39807387071466927096; 2796096436464032528; 64164912689140070164; 94815589560136822977; 45544737727792641323; 34048046930868684767; 91940020881066026908; 43160982174805547862; 21998846099273524966; 98514320838257647450; 68277124854440643781] 3176;
SciE true 419 [18406051170651093189; 12839918036443106809; 35209912565440019579; 61971595075936823301; 63512908177080508394; 57054193432527094325; 83467868424888153476; 53702192649732569239; 32337476658513495498; 43599692535790435803; 77234025381711482889; 46924235017603714090; 95683275636690722962; 47743425953697562687; 91155826075486231020; 23136111420131531180; 38881701059857089856; 81897129714482544203; 85889061329697289560; 36116465244700686468; 52901094952695969694] 3185;
SciE false 419 [22511891116711188596; 28084160444507729729; 70732985947501775432; 48762413054067887110; 80116020457697567789; 73969695191163535493; 75764966362921081914; 97167193564304541242; 59953168319924674604; 20814187112588324128; 41673762732147585633; 34968684297964466046; 31387901231126432532; 22209110063261658600; 7767522590329810280; 54911995832505090215; 82930840634659873477; 52598453119198345761; 94895585565194233254; 48534971713313523789; 99730892960071848843] 3186;
SciE true 419 [17244244432328444991; 65131388179894792251; 61298162113786514845; 12044325690020064435; 16537457472656524217; 66250623449094467708; 55975500833213141057; 55041585586522811278; 85822868173627610383; 59669749316658296394; 93074643745777811375; 24365760486096850905; 40553985988431268100; 78173757918688550405; 51978981227288740575; 2599305504045152475; 13205499142722805361; 18417528125083862270; 7882990788654869948; 59641968555604078061; 67960562943151463368] 3192;
SciE false 419 [18622592064595294355; 60287724763987696493; 80201070275576149027; 87500588613793412877; 2844857414327161700; 52059626152000671590; 71860535425255303724; 28859989013022245225; 23098498096475450737; 53483412964871214712; 13722160021184552206; 74387889756535825917; 44631090261758655362; 36523246098866630930; 45262582028214888859; 64536525960931211744; 42450933608521976783; 39785056001521665904; 17986105306124946141; 10486644833907317089; 72981859111888114580] 3192;
SciE true 419 [12093825102678486500; 98544168209160097732; 10327137384840076676; 4734106461030888421; 24280000847947568537; 79606136997184087566; 56319014994991053553; 4779783207419965577; 65735528196633401337; 27632499979784706056; 28646272918144308916; 41262959327618738447; 98597039758423081413; 59410478079358429439; 94436168331897707738; 44844332969780452467; 87112928812124317352; 13314871062471100992; 62404117619487234061; 85660413483108737414; 74668528478227128435] 3201;
SciE false 419 [18869999365863383434; 32817468040286107425; 57229564231160879377; 57833706753234391877; 23408746993310360143; 11662892810670218725; 21485264978994890744; 6358019737554012337; 87897418508288794237; 81549023066170833913; 73122967680860275757; 90821119888232035565; 69611984664055900186; 30961214932612886865; 41338082338934139430; 39915636495006243890; 2355080166035464720; 53312375927320062720; 51006291654505893186; 70609659106069367879; 89511946219799442017] 3204;
SciE true 419 [31933108847389674991; 38929606269731400858; 80538030549025498864; 86524176624711866032; 25699305146519564372; 30345941838336316692; 6573134274271026935; 13084346572211179290; 4235259330110388535; 19899877448391542680; 82913979440496148129; 36845518822351821665; 73939593646626911068; 52216210215257609690; 43251894335788601524; 87405431923372021839; 20997566050260111696; 41113392445769008283; 33461396159696340251; 31852947733350828466; 13633141522867465633] 3233;
SciE false 419 [51570493978392709822; 61265530134673517081; 62051907614316909605; 84440964002120678185; 77175016337312121523; 63829936216739667535; 48707698468161926401; 11415792140137560051; 16539854154192996606; 770730886210814722; 7419143416825571229; 29826617578513329037; 41786721326863414659; 87055649557483320679; 86037416543047539877; 41819135287404423264; 46813129083812924907; 27944478634979535436; 32282693226826020274; 8455779913436485726; 23409839865948246450] 3210;
SciE true 419 [68631269822207547269; 70718413736047191137; 68578496441682303666; 83284372186324597433; 77550203733497603891; 69195703106272093129; 4093785056522749513; 66529939434956372012; 1058332330754087835; 26109350529745234465; 18414373348154417150; 67520890517963431837; 58128035725894324881; 86946386061524067639; 34762384860901099652; 25586573329305578180; 95174048727604036583; 33489797807518634173; 29525461110087164729; 81449798457495187831; 92776471228808117453] 3221;
SciE false 419 [26244956799049054067; 2611638322393051032; 98148928002481478081; 37791561542360987540; 76474125887119357012; 66814172442316478064; 91750630446713755730; 34125705243913718491; 53561214653909111365; 75059314380830912972; 90557226592326241770; 97402190758726295941; 6155694728006737993; 14824753689562349643; 13055479930754277615; 58559967435521157940; 21324817319489037901; 32396053204492214910; 67573142717818790254; 59435602415340080277; 7667738820560971870] 3224;
SciE true 419 [26492722765744737629; 37198440087850974047; 16007192563353919412; 725399539654458421; 11144836802897709062; 39723444364478113774; 3387079530961892527; 47620982446258417411; 44598502546160941144; 77202783834496072581; 96868066807763292552; 31523211570678760027; 79410986724959012554; 3976719814241098340; 63077989646080311275; 18408918843923295875; 84843804224111957347; 61387891946540136359; 59639597459509079575; 9077310989250581319; 77467615377084978373] 3229;
SciE false 419 [11438896308314490248; 56584931455591977177; 18595605243028730964; 63773151808976617686; 67322804374563228389; 18127158009819697999; 99439707522416647935; 98951267987252028226; 77610823084625064703; 24824796286225629740; 16274605369627751231; 40281460046951090461; 75997821529152882915; 74936548421018921684; 18242559441671175346; 81438037512874110468; 83641569301316254748; 67008098994951977818; 4578052567402605737; 86008909310184627262; 77686790779580645016] 3231;
SciE true 419 [30361202536615537686; 59035139398426026099; 53480055036377977784; 38441779157319518948; 71289186475873491960; 94811139101080773800; 17528950432363649638; 28854521619617221353; 34010577477470341498; 8966980167152656789; 45663197325044228517; 51867210088671397551; 56050169131768878143; 42114918540967524133; 5192288521240252485; 53837168520721482727; 6384629601484112160; 92249139661343314027; 95403990400463779996; 69047717076332536416; 89373570858676659602] 3247;
SciE false 419 [47389739020169884666; 85659983725675911122; 69234061185221675448; 7516763570488064872; 86852953147223674477; 71996560931199989474; 16328697361203325726; 94230021235021640826; 19028368105622171462; 96944500738204594649; 34742420031843759312; 59047596853611531700; 82842088250121257071; 68834781018010090854; 51199787934670822848; 39913215663130699211; 75481764311937785344; 17156506323961257590; 6555481749106194751; 57051415759529064161; 74758030080174378749] 3239;
SciE true 419 [26281147299905468186; 20102981066266936495; 90568393233643749335; 35836108008888648073; 60011799776245068600; 2198344412576354167; 67886383391827502784; 7206939790254808621; 55932766145429999862; 65145076949898458563; 5450782585576980527; 93518094714432612030; 85867743406155444220; 67639901091264908796; 89823902826347106479; 83394652842681572719; 29894750443125036139; 9511705798092856509; 87140751168153088519; 29904392662567687846; 88874458710094742743] 3248;
SciE false 419 [68448937608613127456; 64039088144729875719; 54900437768546870239; 46750502479076092676; 24415770365129628625; 85702360596759973475; 97882259098132457270; 85390327869103764335; 40816365627979485722; 60443569225219250882; 19041625660156799999; 4062979172631388815; 11028540008860973823; 96411268192078961458; 3618624178692712352; 89906699520345818388; 93025378395633091462; 50984886518605483408; 4070481612886222290; 66956265672153538617; 30604151353740753002] 3259;
SciE true 419 [22817041765243229287; 29530273569222866739; 33215382864449800113; 8698320168439327118; 13713627358965285373; 15660729045648174724; 51777990063499928537; 34606494996524096655; 59642523327897277338; 6836099045316855674; 32565197362329771593; 87748694437660179844; 30564840120339838959; 2657074543968787562; 39143766393836644823; 98282244906161064940; 52866213231108758735; 16748889250660552738; 6109270158103794517; 64420193792029870904; 19929399217353551442] 3262;
SciE false 419 [10134761635528745100; 38327365469141855633; 94788082014354880020; 12749445628244885017; 55548408905750479641; 45025354693303229893; 91417721815942669025; 46088839913132956751; 773749806483040281; 41994881467964323577; 93559042416956433089; 32191257669869252362; 14541957879151362927; 73051798173837646806; 118555729269644020; 12722266549115575713; 25969313846488555380; 34790451155752864282; 83408267847077235176; 94093792828751602195; 53225640487349365835] 3259;
SciE true 419 [25965961603329789215; 25769248580877056120; 96552302301631168938; 5855498529322836968; 31912472687088161582; 51108767347192414600; 98841843839613899242; 47746364501986051931; 30241471782731442393; 9279585326957227748; 71712166928537690683; 56629523945136177731; 34576398646908829331; 28649085007177502921; 72782503369312666695; 10705491205947214729; 43182208706375964933; 72647868557675572514; 78141993837128833988; 23763944619254898269; 9919197621556512146] 3269;
SciE false 419 [47558612427254168434; 30973202234945405794; 1553737796450983493; 69084535535005769692; 41851905348193702970; 73490404955277753191; 56139004669083293777; 35704778216579234236; 31924817627838283637; 86724302940348019323; 70936409777601506964; 10950000631260251449; 31076390445806392843; 83246061872859616669; 9048646492616393951; 17582859623028859492; 79165187445409218725; 21708413519210531541; 78502319777587907983; 94101970314664635900; 85211934482249085597] 3268;
SciE true 419 [27793239552333548862; 27606496291242495971; 44602516177439153662; 89142944198389474362; 28277673695549650200; 76406290339727789929; 63962282065226634564; 8722037525097408600; 78249449746108403298; 22846731521241741609; 82597001522279533885; 3070982367413287347; 25757416576915832002; 90355435170385155989; 27971526893576663515; 61850754790039425905; 41204709181902125034; 3663137830969090891; 98571529557943144590; 68666351508294028150; 85852406996669747194] 3275;
SciE false 419 [41430970531598474979; 62624140856588448066; 9110051974130570078; 50029543847368733666; 32712815304729891912; 98245451988799307966; 51142169510050893060; 5260301538772080986; 95570989372718601891; 27242645700239568336; 20011901992275672023; 72081441967287957652; 54342348386955360269; 81164031152432801101; 32276335871076498020; 78275852444102701430; 17792138508503153875; 57092819584703039558; 58412900595552221587; 82414475094542852694; 85286889457769190747] 3289;
SciE true 419 [18669642395407756819; 62352835039310974783; 86987178197807592320; 35615158624810346995; 32229568349806062970; 93525126172791153693; 11672957735484625980; 19924589091799250731; 50513952477896353059; 65652129478423219323; 97657895877751559849; 21308902847166270278; 50129533530243959275; 92198012680948720489; 24986325000685195380; 71392658422515488503; 70728872663575017475; 82199162536302002909; 74407003309978524812; 99114526997651266605; 56377702881961667399] 3288;
SciE false 419 [10782292514386739816; 8749197003016158721; 39876560664381942977; 35385579558248092733; 84757991083211090153; 43831253709551444237; 19572593413873233326; 87891835052965939016; 71865426632308614075; 37330547516602794490; 86916733192232419514; 70924629026862865383; 66094509389733462935; 4777470636714372421; 21967357787484450798; 17682543551250627526; 54376820992308492307; 74704124738000646478; 19017792822833114776; 61817152159469983940; 46692430531871437215] 3288;
SciE true 419 [43447896132960267921; 66365283676650340026; 63945499098273734494; 50464741028351335479; 97294377775940731138; 94044880345810397463; 6547478008902793592; 64264714591364802753; 87555409340101114207; 51725073361455655983; 53167379406704941113; 50498387712047118327; 51777943287845191561; 866256989090211907; 11700129389298342592; 33391013087321572971; 71644164287658423822; 96338843117963975973; 95302047116967432810; 29349250230237699505; 82095642109372270461] 3312;
SciE false 419 [52090317129086688863; 46129531833106191247; 80466887645702678530; 71243620810773672525; 17621633910012950097; 34291448534398863226; 80897620006922753880; 62830211893069854491; 45524856931518895621; 28190335228364075183; 1059259362612369459; 33197093258551789118; 77444974566604499072; 58024188851673806329; 63772789736793151712; 63688302429571838539; 38055138390082378056; 77104298322180152769; 14818007174361368996; 39254382859517047762; 22209799172881352846] 3297;
SciE true 419 [33375739683052509401; 23105469714027969181; 54136161099604597072; 69663565445358129053; 53249321129413927271; 30227711669008410832; 29465879872199527558; 67022169699480386355; 66460445746502980688; 35887064575332951394; 71463203077318247411; 12302828084881641479; 96125455922187314389; 36259619510635209746; 12041707950710308269; 90801890816072628294; 92140596495983655599; 2305055627337743345; 16455817625405063169; 98525582252657800312; 60011968936395650998] 3306;
SciE false 419 [29578962938027188756; 8341532658750100445; 57709329220718592239; 72374651678844402759; 42580137039592055823; 22659822325430513301; 99711764473360267003; 14147917039212256791; 63020423829854846673; 86377437608322887404; 25141853366631011491; 46547303047932848017; 26644124224004386205; 75382032948687424522; 45432702189462678187; 80257509028924008477; 19309296703883692689; 90958551693576443432; 29182433310192760239; 38390175057400546564; 47887666739368100320] 3311;
SciE true 419 [80236741601719449555; 97898108978474068644; 40827695031188497214; 75495880677741214127; 76679197086436509624; 73415133196969660983; 89320147638657036762; 56605457543757958182; 73389639380944524033; 78526121307477243411; 87608994565093079642; 40938092251513224085; 91483288299244788224; 49753688634172202574; 29603906799612452247; 33018375199202749812; 5141612338316587498; 57648027306595840094; 60573582986060570411; 45359268095849444797; 6121566948842857834] 3315;
SciE false 419 [49858761621811274830; 69095424534995025859; 5144534969862079224; 70406047146333159342; 42216492982295371673; 14503019933947396558; 76552983838826581879; 22263955498646768304; 93281089358417819201; 2078116200939605171; 55155760987965639109; 36594496581255649889; 50138279748228113948; 42280611305953704363; 74185920580676392033; 24064207331368572626; 3414852245933075196; 56938339845797028113; 45840362651205757308; 98758922442526144867; 18853404542329268671] 3322;
SciE true 419 [37282310970027560699; 87993963707135811115; 30415635728429619258; 55165298421934562523; 97763289790698024884; 93288924957906344311; 21783156941892709119; 30667207783813499850; 96544646441557758991; 89873482919135463223; 66316304302164721243; 7319502068470119924; 5688875585862174414; 72067212148179367110; 14228221999913063703; 5598778503440156758; 10091127245580663332; 87186728197922191214; 9579502152505838296; 95627990728321074909; 96558873545882919130] 3330;
SciE false 419 [68451922869333490891; 93712410031249797377; 6949701600209108051; 51417925989343812418; 68617492230694655259; 30536614866468884459; 1635619507167058095; 72925147309185063690; 57583405541933822062; 9278901317834232956; 58647689099682932966; 37010251842703301062; 54343431220079885206; 62123186223550604317; 83715325431675499766; 4404000465903447204; 75607371969017515488; 79526814343772596282; 66459785351419768420; 29994321991322207321; 83125239062812370171] 3327;
SciE true 419 [18886340853732076962; 89443155555439682259; 64196819184565142843; 15101858581315561578; 14700401538492407283; 46558628194700473312; 61741937626522263867; 81367215261845317628; 21558508303282051792; 44456613804595609404; 95025328872491798307; 2048565873126853201; 33147642215217415495; 87506009636536487351; 11648111463503884268; 32520577328746664801; 39239560399613091486; 94455171418713689269; 41636447432138453063; 55286473191099618537; 48406805577067977498] 3338;
SciE false 419 [41551743589102508362; 15611633259157595633; 36368173232615367261; 1535617263046551893; 83649453903721716838; 19574233699474409624; 46209762616513130365; 40007741581411917570; 23164124311960449953; 8983086166665188817; 92964416035523949442; 98781143915187281724; 32392856258472384476; 5532272873738732652; 83037345440375592294; 77951323701193244501; 19318077291031854316; 60080663215936101662; 46216269820672497949; 83608361960864596708; 23530328464204063015] 3338;
SciE true 419 [93196298874445260320; 24470265851634229878; 68560322389834283790; 93208644639154747962; 98117761220870036180; 32144453091162210064; 90896932340617386178; 75668400655383722511; 37810223704391791724; 53058379097923163194; 16887066106018454326; 77402366158598615758; 75320764553996505095; 11776712482482901339; 19483119900568766572; 80576925807829763020; 3674004047152462507; 53991079347959071735; 85002231032122078228; 88462062693384203625; 81372297171398536982] 3344;
SciE false 419 [15835507367974561890; 45735123701012453815; 28331490536242230911; 88437634959136693632; 20221421370018687389; 39670837113391827186; 19665311238605368942; 53338672810335757166; 88502572889637762505; 34125753669898814539; 27293130275878425611; 36741849658456370131; 32312989100361017333; 8250895952777633444; 68716043084678974003; 61706830938805707791; 78620220812322265760; 96501364632015289059; 35899101185912320017; 53559244505593811878; 81817984365240382518] 3346;
SciE true 419 [15138459132004888097; 1665732319490153743; 30793491207384953739; 45980171151955776183; 30356459038384245903; 70928610637275495961; 31199995561261641816; 6391555365126928516; 16927918507641687087; 15129183173751552102; 11207904633010868385; 19218512600609873340; 36321462344549830626; 71708359326186330443; 62142345550095472318; 19127003837610272238; 62690667411801172399; 99659821450145498598; 2968844081183304664; 64973964507247635778; 49837214780167411518] 3380;
SciE false 419 [47809940548774467163; 81501294381190704845; 40970650486260275250; 745412574873774336; 63382914166672610099; 64086446316312531607; 95885341584960869413; 65344639931880484637; 86278975520222336781; 16535508452482540514; 41561162623306357872; 98594295536860868286; 99211104696436803558; 79927556266472600714; 39019248553451755045; 63607054434255274735; 90412719186615997861; 16162902721637655742; 57974152969092466730; 46121269192682489169; 19906922208664979685] 3357;
SciE true 419 [29087249942994904578; 33914069695797540600; 3749294371452434700; 94063629592480608372; 19254931088109500656; 61884038946444009382; 34408398730606019201; 82618341216375651822; 75479728695362655661; 76857524109142708532; 8508816939349228031; 47549999556475959373; 12463152342348977197; 479457225766130547; 81903212031915262732; 84074784212313100667; 61290211133564986505; 99315660118240834867; 61795852265859954879; 65894914850021787121; 25145056222947015686] 3361;
SciE false 419 [16498210182131110388; 80796023130935670946; 69572208200033105634; 53783897839130432993; 105089014566598644; 61235947771995681379; 91252764935262210962; 89411215180575417180; 13961892449185554238; 46833923963223986415; 18303193645506498661; 53357923824733430269; 54367784899422339145; 9952182352272090259; 69144835815825242919; 22943922594685488575; 35318830829961239022; 55565607149625778746; 32603755450985363769; 81030463509577834847; 49010489273975029075] 3369;
SciE true 419 [15098304841199261828; 77687368145005689778; 80763228828733808261; 78454976507030572220; 27954836111666344692; 89565576111559289794; 43225697524397315775; 37041025383408313667; 44061620339814465861; 12378101628920930220; 39275369677240099082; 6355295622272617273; 43261654856348490683; 79754535573615444365; 91451713860890103172; 70544524501584193007; 30180330250090523235; 83912623434106520408; 80745589552074642916; 48605922228712377767; 75918890093509579130] 3371;
SciE false 419 [31461453555733464253; 22507088389349574729; 33803005443585399871; 51095325913301489969; 38366933990644685742; 46037188514657014800; 48154686659607004015; 60525706898253419540; 14676177231023817423; 34182624269746067798; 34414933730324857286; 28720989769015885855; 14837980618252539672; 94165389524764627185; 56868311009633561478; 42338825369825471568; 92579139222508841273; 43750122214326854745; 36938439614683347079; 50392789574254571233; 75629717396327381269] 3378;
SciE true 419 [24249855090642637907; 95207963176587662730; 26668050976756105310; 31209915694442424426; 45420262196039631743; 16052757637735624655; 64340131344232737228; 24557668439009689964; 13722262390911153896; 46920593790565356218; 43604450586379456589; 21833763833412445797; 92313320909152010223; 9136647617307753474; 74982612453097676894; 41996147417077485425; 94231586396687880894; 39010721506068008007; 23671535779422614553; 25691356327229518173; 52358303416419212034] 3391;
SciE false 419 [26438541652821986100; 34241489821539700064; 2315058596319033761; 59007553604426675053; 93714501796110465889; 76101522666911593996; 96118943978726106400; 34166712634469867225; 6746391657579806309; 46522363300399349241; 99112351680907545227; 62875018325884428797; 82189431044527303287; 96442592642111020191; 74837506271200276611; 24650773512647263938; 49838219333195260441; 37971130240926855325; 72279806138594522243; 56116029065641833515; 16217915071331485102] 3386;
SciE true 419 [12919033347886290115; 85168509104204671853; 22296267982478556377; 10955340091429557190; 22567616322701509178; 70703121730281820130; 23682378136129875720; 49696303513402434449; 16540430413872013869; 49624118987424355000; 31055285852965024035; 68742840717275169052; 73485394109912146470; 50828818650161249725; 60650092882330300852; 20744937775877314662; 60785848660064416210; 17112390604710055097; 72739778514642896999; 37966848793280725299; 41429437612267860623] 3397;
SciE false 419 [72660215896497116198; 777317979458009241; 1145750491446037003; 94296564216928765074; 36441286648098687918; 17708598140513850243; 94594222050983423576; 50046738459695782001; 5919266716139988061; 68184134948749383165; 69194737368816041611; 78008471840788716477; 83269122500687219018; 66974354202987564071; 35952327979662978805; 37840199120733924100; 18305665313338348126; 42816283906831223844; 68043982828211383803; 40872746313475095171; 17683237797312634095] 3398;
SciE true 419 [24829723987968656217; 4278613131921475924; 43106150931674852748; 1571689948422185784; 6137356551718034807; 20700192568539508209; 38118608217369856283; 60729403490934463372; 40293757207230931110; 93633150399875982002; 22174236781883640437; 97994680598561180683; 85370716012973950366; 43772717065982132101; 51837104498151778132; 57233879852659405332; 34886422014901817103; 81815769085289720449; 1454186481010842837; 38384853077000494015; 15057954819946475299] 3403;
SciE false 419 [15405997362826800381; 29538394411642095345; 46073436394923880956; 18944073496120682093; 19024030397629630510; 26988877709483946951; 44824728054224556434; 47064949455840527090; 32733945054365285885; 17626823414815551906; 946347442277766241; 84845622586787038785; 87564148329202674856; 13947996971099320113; 66627123726424936723; 99255831969346493863; 34704555561942408281; 30821116391874676051; 92622962516536513235; 94649444339665092674; 34215568167310140225] 3406;
SciE true 419 [53209497449983012867; 70403864551899128901; 88127490715534078056; 23076210597405176608; 85155881491618601558; 97694525392756088725; 88396375049567950554; 20225279701801637754; 28852261991780469634; 78175990964934552538; 62908097405256237245; 66895037570624256664; 17296442207326282989; 49717243830980545360; 25081441003988275387; 47027825548596851029; 15074831605379289010; 27910867250738459475; 59318270911557592637; 49395664519302615586; 49703668154891107916] 3417;
SciE false 419 [17752525141103199965; 40901835705747874539; 95537900159355518403; 49493323281171662050; 69285409411229599155; 47830742820459556091; 7788836185614758382; 25043482195158561613; 11267188985878082105; 47814553167413319701; 31269231110088963839; 71047931863978408259; 4624255417226754451; 96473717388122233561; 91141119674438387860; 2637048072791493051; 1867559701432254531; 69099692190339396496; 84259329385256078051; 67648458433323781405; 38240971402898238988] 3414;
SciE true 419 [32488663957861376207; 50151072627873561619; 50458513916915786289; 18118268311890466493; 56970130643489166323; 96343966708913223848; 65456205819937690155; 79944804304630630701; 68367273610814823475; 2244454877017415455; 62646137340208389370; 86505168663794413603; 49447392958905165028; 72308507271595689015; 53938362110238183310; 131682862484775570; 26890620119834536904; 90876966815870029442; 39930310162589057183; 13828070161798048105; 25924699670022146784] 3424;
SciE false 419 [48003811197929084793; 54387900958857707382; 78028080866778494528; 97534918774796967594; 19204527780962797171; 4670841643302834805; 53826358372228834299; 18010133556572993324; 67661349376519724927; 37216197071483287389; 44915179825621661648; 58884871978227376738; 92727724362712488990; 69794618501918274310; 76833254186614175557; 31546095630661302674; 88378912904664057996; 14050352458680491714; 73230048225950606927; 34094625337542966671; 98517947638719698608] 3433;
SciE true 419 [52455859124711971915; 15573158831002802098; 69739234385404925946; 59088478119047813155; 69117953332297555929; 32212108794749567735; 41749366697045547407; 34115510034270542003; 78215690531481552623; 64619686083831096910; 78563515142010165342; 97059192166638229882; 31563259041773321378; 38807600883775142989; 9170669437032161192; 35427102520426206564; 84287308807676228777; 5831884900862033394; 28108180772155344903; 30003480461331620233; 40319057723446397038] 3433;
SciE false 419 [53555330099394176694; 9475010657234971446; 52885822471494056120; 3507760090475692278; 18078355990681137171; 25939347557163956653; 86027181792340140266; 27302027951716696888; 35014727633684385434; 64116738166765472439; 19409704202536527597; 76225669778106449528; 36750942809508287424; 80545462971902477433; 72943890956146033832; 17943877066090649620; 35326575423894262487; 23043919477922549113; 13453730803901743129; 19493453647396067960; 40940581898509460827] 3433;
SciE true 419 [15806444261241473301; 56818570953141455602; 76146976304254439482; 54861666858269450129; 66179770049778182962; 17089849045090546533; 84124385145681116829; 35051271103742815827; 71894324555485950716; 58788124687774816865; 72660429565618650186; 66597273261944136422; 55146789503788817934; 96057164356930166648; 9828675836717208515; 98555761720568933620; 76734486269708044250; 27718958014735569413; 35869322469815874568; 48319172488954855280; 79357897339910206899] 3453;
SciE false 419 [29830332186590747375; 84008845884442693550; 70900401523534682111; 6482576609695868654; 27482935753738526168; 96050180524450973074; 50331814744977202999; 19986743048594511388; 97925319409623812874; 14618991425150684082; 35660864536086969899; 31334720500576534743; 72149805834199271196; 2534027378867415724; 55680616108880376336; 2724633772430493331; 39806619932357983718; 62680762346382129282; 95757815243281546807; 35152787420913967496; 36111456019367677143] 3443;
SciE true 419 [64647757747626920345; 69135013988952282616; 30248680666385107339; 74622532908930596035; 3739293061777925190; 57017142465075164020; 85668668516806881399; 30035482898353693121; 3637255337337075454; 60820737494833867718; 35458749426748582422; 68458590975354854335; 27487951276742421593; 96867978036367411699; 38476760258396744627; 26243079615019423652; 48065432174632448642; 51153911529031347139; 65986341655103468962; 14301459027610162365; 41206530215517319344] 3459;
SciE false 419 [72191625825951556558; 16946550103109055624; 6742556491709003400; 52590505072285936714; 64408509324196987497; 56873405585793763145; 4798652510857454246; 89833792272839355146; 19908743962434190603; 65385770327478214807; 48594612279614530441; 48728640559376575319; 6856561760208554442; 85828104911341452811; 8814268432727706264; 19459133795076517964; 80624086940603547005; 37896100685677806255; 9121430405258576993; 22171509436713298605; 69840340138173681031] 3460;
SciE true 419 [54450335434037338875; 59848624679161272814; 99495837067207230542; 73423952323161843210; 71934659417197602312; 3323255981111522911; 8897516310061657998; 88610980821254817651; 90369475533317546380; 6542912082541916384; 1654663783365406602; 28697439886607086985; 90505902839303235429; 37037370031007452220; 71471854331199044345; 77343380867621685926; 37235397658647632049; 8026023297467312171; 5783534992975493498; 81570337781419160527; 13693129276261533087] 3461;
SciE false 419 [95167774519257556077; 54888440796024505447; 36482018202268925459; 36896455930650853222; 78521806709827485412; 74932660477642477492; 46893835391094214630; 23873789752427406631; 25374885082125051475; 68953126054012154665; 82839783979482101515; 96352955089097263301; 58067759387754585405; 7048341488139296459; 51229474505768408243; 76640795888105103438; 52487550177368956450; 88295759095601270002; 13022313579837425650; 57429520715114475364; 54745758090502742387] 3462;
SciE true 419 [14558747249409639517; 13385018557193033047; 50369934910763864057; 88045135595442463841; 80864221597710294332; 81669146775880908719; 26030629574341166628; 97334030371150189054; 15919234430932333369; 95444981767287737088; 79654993491365315047; 51628481739923930797; 37536842964478841988; 26174583849894248495; 22242331903644063853; 45089264382753633865; 21610092396243497670; 50966786659589778634; 44527685399598727197; 77599757484979933611; 83923704339881115849] 3488;
SciE false 419 [20805098303553220162; 93707363769499522435; 8266761630379349469; 51710953415921943166; 65980255956390301305; 87984453072112155477; 39833859635607783474; 81425398044976876267; 35046970925694088219; 97947775667070528700; 3684292992731442223; 52789711588139707545; 26118038816655263043; 83239475384128444005; 57276867659560900309; 9996672424307558288; 13841064663709894410; 41535970833602186486; 59743193114733333623; 56835507218388696808; 35741763229580271381] 3476;
SciE true 419 [35867524043572582886; 68642498502414324239; 88061988748181349536; 79507753179032341947; 85044297531087120310; 78786674218899434573; 9880706186014172467; 81991797134324377261; 77395597297370744146; 4469881783803002436; 63666329657706844329; 83403163046996076734; 21406592221369604694; 5863206470600187140; 24362552687235611314; 72935290930037549541; 58860591854693490024; 23593022071746395943; 74978100219212485048; 98934497534652984835; 91882796403806521643] 3481;
SciE false 419 [22717263469882138229; 19071285161812572389; 39820347645176770219; 50762689628883411761; 68565868313490818661; 94335182855769331664; 1575920228067240445; 84999106214571587936; 13956851619400987228; 91860101664329316915; 13171760596150810814; 71176856034457849702; 19554104524856887343; 58752995168787109674; 60317492991299630368; 31530039435097436911; 52081574185859870171; 17339382806247338447; 1434372662428803540; 23004242717894339551; 18694727627128244274] 3485;
SciE true 419 [34856053673323637424; 79517443369425116209; 50722975893750229808; 8628794625683482010; 41880480973118324841; 33299150129874096932; 19493111052597184217; 97219297440507928903; 65379142385694669248; 56999105310402084380; 52509525338160293180; 95951408246692705882; 2774933980307214184; 53356455662595815208; 78819481099295641167; 55573775556577303533; 46005181583370854599; 10575585349123780982; 77087656613846922060; 85275486815897488278; 1276838931508839955] 3489;
SciE false 419 [42279311198919729895; 47310732097071012553; 71512025450922378050; 90516578816909237928; 46494182605279534676; 37786944928591480524; 56358434186473683831; 32926070549869345332; 71274492180094173371; 66729678089407249760; 18455639896524763739; 93761627612111935994; 56370241270223220858; 48030394281483229212; 92220145104094115255; 19204634108884997866; 32518423305928570394; 9186565003787735598; 41472062539866067496; 10355572816143254674; 82159052098758572748] 3493;
SciE true 419 [47803641550446402858; 48942343107174755687; 17758752522039879504; 29554063386879796860; 63166847140492355753; 75625534312882788929; 80744137505903621311; 34794881060620144048; 94732395595424576099; 91986250571261605246; 39285319498765935632; 98933672425751641261; 69318057621611725506; 80660654037677390660; 7958091635847306383; 23782001687641206803; 86217339376849988716; 22528931678038654183; 98751847770873924137; 22264220431854477738; 24996237498295198856] 3511;
SciE false 419 [10823714940888523903; 98006658002611868804; 21516121470559816818; 82583961931953084912; 64791226030731128827; 23396625179929843311; 14351728278098617394; 42228943807230832555; 18111004708779358924; 32649656375907197452; 73818085713567330487; 5995256597004018669; 12165565154150438331; 22008310024012986967; 73588253649806666325; 33944043288333889012; 43685722849129136905; 93915846893841384031; 53440932744894771812; 23179854677953164730; 40668339934593074114] 3502;
SciE true 419 [70840138666975304633; 80646451562149009211; 28699494646888967924; 76980846405457094703; 8555484687224304419; 45766962745349058567; 23872438803801642701; 57835992556440234832; 14855638922664181179; 77773715888145956465; 38363156553938970001; 45928379596118559779; 62326183136327882088; 65082991646209711284; 52473661012774251204; 87117032376718595358; 69573668267944039513; 8912743224601594886; 922247839798168918; 37538909757782308314; 73257426411812064014] 3508;
SciE false 419 [14944622759790281021; 54377147982320287038; 35088342065571340212; 86976539740723799994; 7242174879582812955; 96126229675420014345; 10044828962139299389; 81999325954774238002; 70841113975760148098; 16057839406228009851; 20286691529231588032; 89861342092470396307; 34068490262362317117; 95181898610340595931; 33297980851628428739; 69032189677904412850; 10474444826825527535; 96833537346633696721; 239297443020661787; 40881090854180039120; 69936214757265228279] 3517;
SciE true 419 [11691840166757826414; 78503627444763747310; 98279084847229575510; 58784336989870329522; 40728130068222523735; 83416822868154858975; 31431280391205162718; 5644412564898640796; 99593606639504078783; 72242733593534824612; 58434391748360982968; 81284655304903915362; 37829235085156430980; 82026540246412530325; 17405007813635841229; 78398191914828894517; 55159197996044742051; 59522918683144684054; 3466285653073617963; 11746495652013768604; 69603506080515805744] 3519;
SciE false 419 [75614987420026452640; 49915548005889541370; 14908662882832748103; 26315344456026490379; 21527834795575150672; 55717528006078013589; 98205702869210911646; 74205626426236965180; 19973295252854406287; 11594361388216816863; 7506560812713532431; 87412945218759698415; 2239950558968274752; 75655100018486254720; 12198763370299475980; 55117957472933839415; 8109231039228732331; 95816064395085201412; 59398122716448821080; 92089233729275139233; 69006143415056020106] 3526;
SciE true 419 [26969238677158691311; 5464199139963944164; 58423660221928433268; 47917471882578608729; 68120796013290576902; 53031528013509498006; 47794495532276864599; 2892681542673841723; 53548682270699298943; 95023617121214085142; 75456357851776882804; 28765929487657095208; 98943367340993630954; 66322285595182976087; 91311962779735237145; 77001101387996395580; 23114549765912529444; 17088807132500191600; 92460764204658959700; 35713870928303173334; 53974405165829310758] 3540;
SciE false 419 [23345082255493795133; 9564303208620603643; 33702882804583584222; 40772128524307687887; 51305483382650262995; 12925242442761701932; 75493574464843073141; 3208785152892113620; 27832108761151520919; 86284865725478108794; 91771071169149369747; 72173737354357036796; 16219467007753923200; 71958293669775326008; 15212005988429323398; 99847754871462714980; 48957734082255539872; 7924878460868190982; 11566822086696853517; 30737844966364239429; 24324536264215189274] 3531;
SciE true 419 [91118656672544540446; 12328501787827092051; 52136854745888652832; 56986296064104182138; 37754658599211904460; 39429615022318906544; 5241110671117029; 90389641984221798641; 29690830483653682535; 75864200577783260599; 7285130420614569874; 57717406504388587178; 36443856053421761169; 629338598279517001; 46953288808213743012; 76554715086475040862; 38026830381598977410; 95439728529527148484; 28779671387921749873; 54934451184863119495; 28414341455778444107] 3536;
SciE false 419 [10305526404798772269; 62062018721634355802; 13523426736060994931; 52049353375948716607; 95201201727770424738; 32605584717965873222; 66278015256426965484; 73056255274186429447; 23356793987089585689; 44940039296209650784; 56884388237380204092; 15325489061643738703; 28164745994147632723; 66477500555743659212; 11841400532205182272; 49470220284245119694; 39213591051814235847; 71438596870915209762; 73040199554971403324; 37087631230012806763; 59980254105150583890] 3548;
SciE true 419 [27286692344132503640; 38594785630402440949; 11381132844199671090; 23486287617047004643; 36731730426533144685; 50943672410207489818; 983874718089536569; 66080171388028868658; 29431219021075584549; 79717138918872312416; 54644048071988029792; 13569036721137699241; 42311065743481531702; 39614596059009294770; 59187764213466993710; 29152316454669099656; 84247355221782296739; 28468241586655190903; 11732658975425510889; 74410163714171864159; 61256864636597483652] 3559;
SciE false 419 [87880494809882176156; 24762290628238269093; 94266151110070146851; 92584589575000551895; 6723827228048867483; 91695063030504124868; 41691029603441731889; 36195912106418962529; 38523296702412756793; 647010000319758506; 95440971903463973930; 55619472104270680090; 2954624942669230336; 21581937966989265799; 43826221958569004705; 23958734579861111474; 52190555437290164439; 1712639390506019644; 56060008172351483669; 19226765673029036017; 38743336186955082094] 3550;
SciE true 419 [61002477831158176515; 81576425682251177624; 87986306570624306870; 98029862899378316669; 47029104889933622245; 44627162365443326489; 2674315418628874472; 93505989539715280849; 3087284402571772686; 5630964982616889741; 2153487233184131074; 65923368577288907876; 92996927498549625639; 9179824511591315315; 2289000883495869300; 6720426680968507744; 57709475463250338571; 3241844285759025886; 43710557277484258720; 15706387358587435783; 70474949865088882693] 3571;
SciE false 419 [54658703012093610553; 58560977719725068578; 60031261805008271211; 51937576127449215118; 16118929679758603846; 38557032175763348125; 57171002393670115157; 84672453952687166840; 80494461271721145938; 6437700387839267278; 6590892377397997313; 65690388191483984311; 40089501072258712543; 33445130108696175411; 13592278184308522922; 43748170421769475934; 54853590480016517869; 23428412566103875281; 60966038005467205197; 25231807564989943380; 93688308455993562065] 3560;
SciE true 419 [69564643360071555638; 31123914748730113085; 49959576045383257492; 35606665804667623926; 12627313614031700997; 82338221811393710093; 30966692721166857673; 8639626464370207580; 97669128959466646971; 79921764804833596255; 16934945847072558906; 79439061969747005814; 74846841891871398002; 81108389681908385298; 41889608891872796552; 86032995101641373167; 15491647027233633457; 82052321007131011147; 27387132242735663600; 10036807222562951584; 69088765941601858337] 3572;
SciE false 419 [81886475176323958335; 91130211212556034370; 83004053356168437815; 72947509739927071331; 53889379321303619410; 10121567011386523962; 39643135522513569042; 55085469514188720880; 24873569749836390045; 59576951342964090123; 76408448875768989362; 59043010044173449065; 62727055065813802748; 4782868117786907895; 14020675397202809732; 47899491263969064867; 75024257094996313633; 78116540029641900059; 37314573556790881628; 65630568235140440897; 45734799607275945871] 3573;
SciE true 419 [12094165975309093497; 9403218651059531053; 4504468359621888313; 30676071042984442768; 68666055673198506358; 77945327406681084992; 99211918530895974439; 58027186573777697369; 34859100618251106087; 50050704740718486899; 35734662774195122425; 46181552410896305906; 53966024708789935093; 75896876402619171156; 34650963827777873634; 7759090896058000475; 19402440616476021830; 66049463219500827023; 44854182143573507508; 19788217082402848236; 67914479847433976718] 3579;
SciE false 419 [21726257104951698192; 80537341007181812013; 19167582421275500907; 16946047575131853616; 13478363537426606036; 76544720255615164158; 48249316149729632874; 94145048008387336518; 18623022640299618394; 91955485803320860456; 4423319816647064060; 13599544566502158339; 54811986119576331741; 47161317849071535753; 84779319878030548093; 44166733006388759075; 17741011875463002570; 69557844101921762058; 3326062792928216659; 1648784841252870014; 35683954521683899183] 3580;
SciE true 419 [46985090465156583186; 33652428144975697455; 75063662182135598044; 99264280021242343764; 47959088713195995; 93022886212128539539; 35676077488319921336; 96520500202944870169; 35492059176739889250; 3195427703806030874; 73174734878949927364; 78153690806900595519; 86256210684428345117; 74134272589511861949; 85260705641400256888; 61556541116435214197; 96276077914993679192; 77002242226984691372; 43587235786065117900; 17867500683928626125; 79872930508465695303] 3599;
SciE false 419 [13884362516386263944; 61492877024225969900; 42891028291684397084; 80148161549068646749; 47492285923359085682; 9056800559136066211; 5267295142186187461; 8021055245136043590; 12407132319553054896; 52836167160661666899; 13474717817248822929; 50728226224341151772; 72847430985866383128; 86252635137499801786; 18772631949315521457; 16348154220514165792; 44105651640189684382; 97820892404780686620; 84206954798941317730; 1788763975711158463; 13818959233417821368] 3590;
SciE true 419 [10964223468868488030; 75891633845057746328; 90166412378449258218; 59075441316901914823; 25330292760744487585; 45056135061110623758; 54277534071760658619; 64222817998859042468; 35411498891821319023; 54209082240977508775; 83766617860031950780; 73689359919876009687; 87125391416063325644; 11355847481751930028; 3611295292202445001; 68480931389539680037; 56930640184602363722; 34632803736078438233; 67605365486185491989; 35276078521291257247; 23388995249304259557] 3599;
SciE false 419 [10612564535870823810; 89991945258077538752; 59290564232914390243; 8206165974342176378; 41992225497794503327; 70794342108553612147; 61790428534664717330; 96008252869814039000; 65943031474977292438; 36806357660399710231; 13438266623276585703; 65409626557298469957; 69259501657481932683; 8744876708935810573; 87384852366086962784; 14104189648221568973; 40176250277428198434; 34361169211409821526; 1180284134637883547; 97059958426656269338; 81042835280834937238] 3613;
SciE true 419 [36068700978815260974; 30378752975560784401; 57122593062496123664; 36623370132910691928; 75145622427882551570; 87800309663498534007; 68690744524825390075; 93303032854168599430; 19204588033975515296; 8324600031549111145; 56102710907524637493; 17995901153975802182; 60189542546714585018; 31910862198278209125; 81149268147732300256; 58381289078809044751; 49292078013930185799; 71380997541730584256; 96018216703048460815; 23968316980479480408; 30589489434018381271] 3605;
SciE false 419 [10409862373940429604; 85699177870278170725; 29973332663191688334; 11507027494473268325; 60231579547882020180; 56664028654256328407; 62222396466109236861; 46623406288282291984; 21049118891909984507; 42818595080162958937; 19793861041272843612; 8877920849535355105; 37426887524410141196; 60704931301547735978; 13256440570071506258; 32802060759459154713; 65591286912220951087; 19890253745915306464; 11331519523877517083; 92208046721312846192; 5486415900208027083] 3613;
SciE true 419 [38377307576752970671; 65030273080838495758; 56531242784567098495; 19334654939447030364; 92291409058967538747; 45281696796346364017; 21837050475359628969; 71401784750379038774; 76052488608082675838; 24576689368457891132; 82178719132666067067; 30207401295099232325; 85468503437633276869; 50540619498810830041; 62771246323195415152; 91829742958614587971; 12348765307358371110; 17503026139439943577; 81299236788981714857; 71623436805625912708; 8450562791839756551] 3620;
SciE false 419 [15102315338808497650; 50216400681069846574; 79672598795180337810; 17421982842900045589; 33537947125129209692; 56772086321411289695; 84185221195334936135; 970331186335341744; 68145661852194635918; 84926151979354771059; 10602554663313514692; 43004605344166810332; 39636168713968805259; 29532202349954804878; 61101813892621691408; 32934863772749355234; 39867253344046403161; 74875233242935672476; 45997978687602513987; 25287540904351534062; 66073506406316529283] 3623;
SciE true 419 [99932116666832579854; 48016560267852411961; 48068636821056815041; 36185320060365328018; 10283871071054558143; 7744813388506191688; 50587692623014664903; 12879689730884206890; 36766045074686983364; 19487076558556693754; 17024325362248896277; 7228484742848058114; 27875629127420365218; 23367220422429521426; 41572301854205173667; 42224272794945631833; 15884963146864179237; 95639138564704808278; 34407139952307393905; 30362690924551085594; 76347200181031668145] 3634;
SciE false 419 [54819851950623711028; 20072703291069213544; 8501116309388130152; 37421170765981947171; 33770403867621795959; 98317994437558215760; 86699928678782964449; 77710493108415130927; 5497114573526894955; 25763715425477207080; 68528769963295194543; 58238469067335449040; 54763769289978195447; 16516587704331772666; 31508134466051855870; 12154464581305317687; 21351596823814414751; 13826979558421672512; 12407587690025858591; 61617558810494683251; 41593425297761162975] 3638;
SciE true 419 [10343185159287390525; 7744065253672683913; 97491621702171234670; 79637732150835778099; 72893724146977078474; 2727980990345569240; 77037131436634746156; 93023695243382946583; 81985670218799794632; 22420008768036354283; 83855855820698452824; 26072725957883206423; 79452775406007280666; 96727948430454331707; 86991177959542087522; 95769390453277658808; 106746788654344659; 13440428301091790580; 32781642418635690200; 45867710751824108275; 19397936037117656762] 3635;
SciE false 419 [99888233868812114656; 33524937458248996230; 76893151414387102195; 38310407120957590854; 38147017629109335576; 4867057438189826717; 97989361953735380142; 70058163348547315756; 44196045429874476205; 18996160098668780401; 46588692668173331425; 95289946093760504127; 58897850146829279516; 83660867005654775930; 18706133308702764917; 79516307958247824020; 47561305319758488601; 94385035443400537982; 38218701253749614814; 86495339904568484707; 1680359565893179986] 3640;
SciE true 419 [82628332370013654473; 90526332171195146133; 6582427312711161226; 72137987154450238531; 94714483319060260632; 4174491287129246911; 72916485857267112885; 82067789921461577335; 57564320971935369248; 4907729983739971972; 80711047791481702935; 98959231642675880189; 26853667655138837982; 86424731243075209697; 75681033514043138416; 97885786905689277491; 90422948133950727804; 161120862155405817; 53755069131494837337; 68613674759239112858; 10659790620360361626] 3669;
SciE false 419 [12215149733373020513; 13748891986344976523; 79955643496724869225; 86579154927320283359; 12085239393358037277; 28197654256438789990; 31903582684437693477; 74166997259211248592; 38794452515245246776; 32532929320158673577; 38539963974650772157; 56694346333059326860; 14816429823214571320; 35230554356913510366; 73476021893636737590; 92259888035473522827; 14403117363046016461; 19667221219096867295; 61898939286317517065; 46818991789634934687; 61919993532374440415] 3651;
SciE true 419 [89776666007756566195; 79438247171060110287; 51342611014491641791; 83108385088347580632; 68771086687240670492; 98756605918378878916; 44976920557608053894; 87920577646540495687; 68924541821208491616; 94585293075929816481; 82371675611387887209; 22363194828236312717; 22857111853608400529; 45790607754954540419; 59021490028994683788; 7802035436760427585; 75549115783498781421; 56253305462753940775; 2235425152861154277; 67925262490044325432; 64636968623692995715] 3657;
SciE false 419 [23377025552416693374; 72524274168230961332; 49318515839486408359; 99532845527081894898; 63996941951667484169; 40785550121239826601; 75496547398138517333; 31419720959850955488; 38713195049659031894; 23274982595311194807; 40155977969628806163; 36935998901926116193; 41540442035208348399; 51879944934841829065; 85225125163379526306; 59229931992563823435; 76786548805661983150; 65268609076570282710; 53836655945633937465; 60478430926604281504; 30849673150680814173] 3661;
SciE true 419 [12401219109485866475; 2498163709785968005; 44727248868640360320; 93615829568043694883; 74173039452746164501; 6335938313978421440; 94832758067267908938; 47439812746384206611; 96023961007999993201; 99832995617761744607; 69904840995968695918; 68003271814404002966; 68583361637009232166; 10323727955723548483; 33825589060326179240; 26271981535169035795; 11559239515042555359; 65749875550562386503; 53235465125634764296; 52032994105602100261; 40748217020910863411] 3668;
SciE false 419 [10619110461685863184; 82904614259487563863; 73286633817856429113; 23522965514563068157; 59156476902118310033; 65936542707855588494; 37251528909788574143; 74418751049993563646; 47341829614184699873; 40622722204469340393; 10961676070219464021; 37835012883253385201; 85203942660944025742; 49050045386674358018; 55760967052255781306; 64356964651508032848; 53089254031609649906; 27126618055685493559; 6500057701885380515; 63563653354001369670; 33130608082410484233] 3673;
SciE true 419 [18285742242017495776; 26911372454141649340; 38337162435120716320; 52208601234311122109; 77831626822146975275; 91632043320640368715; 52016048737537742318; 9874773081164792904; 33264800506913516367; 27764105997581154216; 82241707591624402232; 58220428335700215573; 63945012689190960120; 29084692094660256028; 21251444047403185798; 52533577885577233350; 32149147048661054291; 58126613372463825230; 34495943110522760914; 43704978161763101022; 81760026958875899779] 3679;
SciE false 419 [36912143028048934309; 8526041130631013337; 89920864334546657768; 67624839280412562801; 60083270699682098081; 75694380558553261824; 85044145294992895032; 48823708308475871203; 16505799257141976467; 42014180810452123883; 19789405156433985454; 43417395369571367100; 79009298309933220440; 78867544240217379884; 67031767106655231251; 10454975819678103830; 98542796490042950096; 4131475458155715768; 9873208607543873395; 18029348018056487162; 73769827251530222465] 3678;
SciE true 419 [15408912931295116518; 70972162953065807392; 38396093600255601079; 58842690551743534975; 459021602085077440; 64071799347528325491; 83184842969543475605; 68449203110728295852; 83017697155774736813; 9689383620180210654; 13785898710928670854; 83503514554272480201; 30856614277409411162; 61483879872621575506; 1657426560796831772; 73795200354623032709; 27329570402961983534; 16068659329057823361; 53472604030630597670; 18016134058584941685; 71754433166199487176] 3684;
SciE false 419 [20817635415400954528; 29828757223671068751; 91152321016158168125; 2257286980991172770; 93417398081237704737; 67069083496098365621; 10555499048953074417; 78035371465195814664; 85747005261112952547; 6347438031911163429; 34512965754794399563; 45128800901042745549; 91723858430791496245; 72709775163985505092; 94122879338525565904; 34193076739106812999; 26907465988578227954; 42017800811959175544; 86021662954903569115; 75813719129498109460; 4748714666816043793] 3693;
SciE true 419 [15488879283200269720; 19245542930689155492; 20177324689645246610; 77104988179918565037; 81702559372466216299; 78203589123588066158; 69402876337679954618; 64849620459726598343; 94593142527861759695; 44788705435865300133; 9652187365206923542; 82685736514411512446; 11987066524798758538; 76330211609971846887; 71283703970900743720; 16470189782687450333; 54053238285358750758; 88373837879915763863; 40654917141606352231; 39871676696113399136; 77134873217720430770] 3705;
SciE false 419 [33129941347427835120; 14209680582851787032; 60417823758804323284; 42770067563618417731; 95862449734572416205; 81640625748812002423; 71504373372286103853; 2583417575184147717; 23396128201340343201; 60007116125557643889; 73126261696331015565; 69491588220269653759; 65308870257076232159; 57277680501983354638; 18738960790489676437; 36211376886072082041; 15288105874673300537; 75028120341704076567; 98605972435077601887; 61424275110263219021; 51060890830836364658] 3701;
SciE true 419 [12019032208740960628; 20333285863387314430; 96842377353325749224; 4270008249504968227; 11350989313730323140; 57547434453636315714; 78348584600492414458; 6535565477461418391; 20898126682001291525; 46630064308878162271; 9897792638098112415; 98259193469123250795; 65774651939913326912; 78990189411986821939; 90971289173735134158; 85490619483149653445; 95572056853523051925; 2464161088951131261; 76758130611805422699; 65821052208099803624; 54708726235807501435] 3714;
SciE false 419 [49628823133211316269; 14874827593910506735; 64586961794934831069; 52410211335318343937; 71898616645549191268; 2602067309350846633; 37007597401839328433; 57576162728301995240; 52916688193162273833; 36359002107805019213; 76846184845995644727; 15812615228917437838; 55730129109444647712; 3626742003102863387; 97689085218000651051; 79759304021356437446; 73584787378029474450; 48685091555001225302; 23533907066040924219; 70248103876428444458; 33380389157606497626] 3711;
SciE true 419 [54653084290308062821; 78399491934802481889; 3275368638244560315; 2937169293348589489; 85183904341762682665; 80128091666293926416; 70490528145522265325; 36959615646614584171; 17390149174931190448; 24370659178178837814; 72932428725205285128; 39684402018738957826; 44334770799908767237; 38259524109385635150; 28393655492016235932; 59090893871625714566; 31655003926189755980; 22732779350029023998; 48690723349488186525; 65028448120312224015; 55068813243620504791] 3713;
SciE false 419 [14864713998009190434; 74210201785037364474; 52615650184236126210; 56158545893529084706; 9110962067504240288; 90715218944599408868; 96200015033887522977; 38280367920104482032; 31882483460372031878; 50568298330776080278; 79418154194912252023; 52994034649822640810; 69484792027931504042; 63776188876955754602; 62926128855737140278; 74253695742111796608; 67131406430858942077; 4023483929992492627; 15845094259908248166; 22517656682624608913; 6535636020003353297] 3727;
SciE true 419 [39370761178378117717; 41092263551880612616; 44109254717643102512; 47180487681364818943; 58459092465217372388; 25674587938488360447; 50083042107181154129; 868234581824253771; 82685136062976439764; 98813013563986216761; 83557112030997397960; 27248629119689601505; 61362968696905262550; 25735501246612070599; 3356971351796952789; 41076168267233726416; 94186353783575092310; 63503083427335544294; 15772062020359870221; 95089756131255534092; 2441759430922812404] 3723;
SciE false 419 [17634437658318990316; 60498432744917163997; 6513838583008661954; 69051878134704279503; 9243588032186280468; 85999171179652649195; 2057730360105128919; 68266136381053933562; 6993670899666833301; 79934310105643899139; 61062342158906029374; 43175763780842210940; 68192594846543245329; 56098910203954280264; 64855825263490945166; 32601899768343485109; 59188477113180618660; 76104422827968025; 50638569644750779517; 55237295181672405230; 63685979465244817845] 3730;
SciE true 419 [35538548097181588047; 56238774777954007466; 29666695446715505719; 90373551138177939863; 50697531473810962757; 90270873489150976165; 51968586124243022857; 27939230178035198430; 8031861845529588485; 19305567902745393565; 92731026103737362264; 30484492054659695171; 64257202778148848887; 11589617302264930024; 4842300991271033978; 94086120138652950402; 53182843125979246202; 8951400858484027706; 74208453119470386255; 99874337711699131085; 34076667415967951638] 3750;
SciE false 419 [48938404012991808161; 58928239304479918327; 82122458193959468409; 94114077610531022068; 58577223324596582843; 42721658494299225805; 5496218932453208465; 54272928310083248118; 13487196255920773992; 34419791623425858394; 39902370972411531505; 24953126509372084858; 86095600134795457912; 22002086447105220944; 3048465653484777982; 79361414212354748019; 53038356387344931177; 34994471706636312491; 4195258292004018308; 65398649943245496608; 46576588119935375733] 3737;
SciE true 419 [34840459040050361074; 32337864817185909436; 34033209680513210656; 82226272158439731891; 51212787517903073298; 40357155357587417338; 89704688591599634213; 67068214641158944554; 14428491914857250616; 37058025990835038247; 99436588827151535147; 66877731298592299850; 69808938258839688846; 58050445599401035723; 94082474589870904033; 83216895295274751363; 4757116846514758641; 8049473194670335170; 2858077675701367955; 89038724326570909132; 25653993957919251733] 3751;
SciE false 419 [25221524584732635900; 88054140707263145576; 66833545885582609978; 10472173206962506084; 9962881466589713949; 49687054132142146723; 52542002517552641805; 27890489257393173122; 46221238693773623429; 52259063062891177856; 28090043169257776994; 33901545686456685021; 12073027776844379970; 40136525495196332081; 81515514384231001789; 69968088072283876538; 97733889710067169746; 8247601431387291827; 1114457393170999182; 59252347755795092934; 92285944644995121366] 3748;
SciE true 419 [15508500725642843150; 19804626798528398532; 70629974068562116267; 36452889927310234061; 56569789689257044347; 85258150246825222384; 63166460415275856016; 29403630458599629107; 98219735588987423446; 77243728302688777431; 23385243503962085330; 43471759971812528866; 64005671471068229200; 84396955664316485236; 71648972128757425090; 41565919216482551610; 34584210788920044629; 1969701229590086557; 48398858244190212638; 12657897039841185847; 42466836426801821123] 3753;
SciE false 419 [49423675129803705710; 79317127510395977322; 89580450207821877685; 82232641994773599503; 10458990799298053194; 55478288845285995157; 10081867688207590210; 7879019745569888937; 2823756894787053655; 6605309428260052387; 82080942685080525617; 72311967598087011153; 70575641321769259650; 74397554424580707039; 26240884294643838122; 14111218245794925269; 75686443489265199109; 64843510719178836357; 39687333092658530137; 22917499259350597060; 77069840795999460155] 3760;
SciE true 419 [51429691236109910682; 48264929941240610432; 69195699533476970896; 48260882800361868569; 41750887955422310943; 43877361604106769969; 79775968968788295557; 21859879395563209349; 81701998345100652804; 13122774157710922910; 55432948016591218497; 18670836321592549028; 87305368826076335610; 4581784636314058005; 68665547384419252894; 122731342690097626; 60543047777470676919; 89982005873594796112; 83721920861644154795; 48088408737335482562; 5578135226196048290] 3778;
SciE false 419 [22050520959568168475; 20322938518444446760; 34660195985227770319; 9074222451172304174; 38474430538363734585; 87961045217566341283; 30231900715533033591; 76330231212205005264; 50103691486102844248; 68081139565091418027; 6841576037780787227; 86704410332815284711; 70531479825542441013; 2453956073435305801; 80356584820689989074; 2893597437229214120; 14277175416199630460; 5698605110652925477; 94901009072223843059; 78447203696684497584; 23229038664963712346] 3768;
SciE true 419 [87032976800406472102; 5283128236401130486; 76595075418198428638; 35951699565832854937; 42674161186732900495; 69742239638760333340; 34020960647181675497; 3410262010358712511; 73853535432150493753; 52829892636162730185; 53995815997269957675; 3909214902161388003; 49788138653132916824; 10720415746749672687; 95375758393370831576; 407463943901601424; 37133808600635114627; 11588158574409976764; 14411267567980723548; 32998806618086664942; 75524032346757142928] 3772;
SciE false 419 [12470433077536903382; 57897217169379836827; 87272676635589790400; 17886020965534451782; 71583947474819466654; 66025204099011990794; 52116702809772861748; 99304157313431262903; 53114805873377095186; 22076296530636731016; 37099257170516108562; 52212491065678982358; 178853015558433039; 79994053425417763425; 15807547363014281929; 71930763691380641965; 14638299302729861985; 50771727814298722686; 79101950936141708885; 81853159941272713012; 49950593885794017895] 3782;
SciE true 419 [14339828838252349207; 83067616946109445552; 65845570246012742335; 18396294170313513315; 81581121279527462412; 60076852512925199973; 14663775542692138352; 34930308377215653068; 95985393661371861481; 33426866002315613661; 39962770801785087348; 77190509707677994476; 8099513488200004608; 84880465568389177223; 56593431844993867717; 68584347001550527189; 61288817276338409584; 81949692591569820641; 97300335573328023002; 8193802473943151964; 12923531688054318762] 3791;
SciE false 419 [11545141813145618688; 47018853506754824611; 89531148624425704203; 81673216723081567800; 10403521739964038368; 47287986311755822747; 4476219307312275177; 19978916104825267929; 72285074531210029281; 72168715250110170612; 36017669325021223440; 71630167667593875808; 87671336745106343906; 99954742116346845363; 49389521991411515699; 15107783693987909800; 51197845993380942203; 57209282931947840649; 37021479779923914117; 71505043768764491917; 51710064328887335062] 3787;
SciE true 419 [20660606858267101423; 89104076729402342638; 77832436561326625002; 2527308056146727843; 46287425792524143816; 85618370693178980978; 49768756440768353992; 93247209523212970062; 75939166979562313916; 22208329340955414114; 87205345400826748104; 65124617336571213792; 65504475507940254981; 82584757574717923214; 97266897093804130203; 87184679276706207380; 43501800518162198090; 86101352817695237690; 17606496023728637157; 74028632335545471212; 28045771287135443331] 3807;
SciE false 419 [88756094158003828544; 99914446292600138848; 94825311251240516582; 73799567260768296841; 54082992949124283555; 84144581259412121450; 37442354862518654116; 85016572372582117509; 44053060503183981953; 81297112895887902242; 20853208851265283136; 93136320363595840723; 22274290246542272571; 63634532365026165779; 16066516563712329124; 23760797537236053002; 82277579884933842688; 31589604323009881364; 56463440897553092615; 29585807280537423596; 49129443252139114169] 3796;
SciE true 419 [18229891897543312081; 67660821210654306584; 98803609652969880140; 7482054330157314171; 80411757920395464253; 26629384604608433500; 63419229429909032624; 43806425795905805551; 21996483338130083424; 6687648903108972749; 54297442837706037980; 38901352074192421947; 15085501751783606355; 8806155920573031886; 33634559561376204344; 94744146460553424399; 28750876228982326703; 18708244123855329155; 9504511514205870034; 92622837886181031813; 22428148963780377579] 3805;
SciE false 419 [89943608069426663853; 32980208840052075688; 99616361178790281769; 96647360108261129062; 14773844023435688452; 72562263431716829932; 3982285099218326434; 27240168313265049190; 15184520819951869587; 30811356110514205844; 15437827822300652098; 16725745378268334303; 40332421595075581702; 40741741894707926876; 7927608482792595163; 67722436163931144032; 85905194945191161647; 79187681550569103751; 37170330309980027547; 70675521493526660423; 83228996231767955577] 3810;
SciE true 419 [30399007513691005474; 51490330855058336893; 46442852222037825593; 63708140943673929005; 21448754113913388423; 51538103245837370162; 28210268981397565341; 40947268056268424150; 68691497378949606883; 39323491513079170513; 97117741662606891136; 10773625844830828906; 36259199925117362387; 11112430339370614045; 40373812717851303534; 77386290820853454657; 98591129840169024312; 32036491926151592582; 57243033639115188241; 2721802873261847179; 72762619883020570910] 3812;
SciE false 419 [25478560082106148400; 26841031198874141861; 17119770749546665740; 11531087774986453950; 78959780266706070112; 43232315305653095845; 5538316897257101599; 95895867831179133215; 38794019927201024043; 26206528248247004992; 28007368256805624025; 45151200585540030220; 57965175769919538923; 2768413170702964595; 53454520946056148485; 53572928517731844808; 91924753951582691872; 45625345224245914760; 57835206970838064885; 23793318865507803091; 17309200785348945023] 3822;
SciE true 419 [68448398142263013803; 18392859020640813035; 9185768978857607367; 76204247325499779325; 4570532862443288927; 94172481047241572163; 10162318770354309923; 19158637299822650595; 10479164205564484746; 72885937816171983485; 59206042555156957576; 82035140354141556708; 24352368008542182700; 22631863786977192954; 24118357837157875949; 69538820847615327517; 23174965357361535555; 34311237413618845821; 15685068183718685816; 77529997578719030388; 46374642140563241712] 3844;
SciE false 419 [42456881728110148774; 32116365816741217185; 25906182266744197394; 62858374523680510148; 81289887254553670864; 58061162593801053741; 16017721484857575595; 41193853153214410289; 4217098097502360420; 40912955811537094226; 26858963847570712935; 17368051186535769506; 69583525024029716216; 64909514485633977187; 2942120018027756981; 81868247456217287793; 75240269951123460428; 94786675392011232484; 92114440336804665797; 25464266527832268892; 2751678525899887393] 3826;
SciE true 419 [27695360223120581314; 98426351013796941992; 14457696344045609266; 14293730268433789196; 69792349872218658952; 46730453521791286804; 30119834511263927313; 74467239181672457861; 94587950391230207322; 96981632590411791636; 25546494744720390705; 51221672181905758392; 89015164130435758743; 73032866966527267319; 17725910714872250536; 78749752130352420403; 62416009077867508759; 61048949199820029722; 89758936729586279623; 98913031928891480769; 49293173296866673253] 3839;
SciE false 419 [44427042910790439703; 26914913550584915496; 54825108255106445345; 3997043694139919268; 42010459526355786688; 89027922855193668550; 44525113528901662697; 88769468749670746491; 28244231333547708826; 15102644600839571285; 14884646634784458750; 24245084283086587207; 5629666748702235455; 96165509913692005382; 22959639868348767747; 7755963489811983457; 48180495437953091806; 46797804771570279885; 15235186471940659151; 62698219390909919788; 68483665523846419089] 3840;
SciE true 419 [64133309190038749964; 51661276103763993661; 74229393711374303414; 92589809696573548812; 95326055755243622028; 25825592137222876628; 19213477493873460253; 59247657150163807916; 64438003352171252935; 67346472261151020808; 73670481618271266686; 21359624755369492311; 94449820409407849242; 84121026521100965224; 48008247024503014725; 15713041923366608961; 43878546613735744900; 45469773741831460716; 41774246306344468181; 51430291263254774893; 45197976126293054638] 3847;
SciE false 419 [27101676547901009061; 49151561276809874009; 64854859403977651936; 79973792254234358445; 1035821699456528500; 37658176032823545319; 80468279018024009825; 6488131909455745327; 54857645589012203564; 44665322107827077537; 15572171971806393237; 18151321107450984793; 91445598565830655060; 49636815270056466457; 34373081638135289085; 85439817683615140578; 96870894501855149222; 40146778898887314882; 37333429566341599007; 53468523208045393821; 94780515204302490500] 3846;
SciE true 419 [11081002074667527373; 15357839588781214266; 61835606700490549885; 97292293327432447423; 25462553571110512133; 57564772745105001043; 64155017140704450511; 79691874963630472257; 88570584005402414527; 72640514423780521837; 27373498252854535523; 29559750642327561309; 43550051242917742228; 91416917527548261338; 57336858641164099153; 56917086233536860889; 57568831683426222554; 92570184140685385822; 89511569489238903656; 32772602302430188455; 17557515342450164531] 3854;
SciE false 419 [85553325622901980344; 39581378181585011696; 14706304499491087602; 75431998501981470283; 10433663143218951888; 14412829680009019026; 11835523231913824740; 68059058642793848432; 80946618467654690698; 97569410700203916303; 40020707604742977222; 22488686823442910073; 9513920664306440646; 31833297641438238014; 89136068661783741196; 99867131143700894517; 83753242583082626764; 36844271792479525889; 30140587809401756754; 3026057735587904493; 95863450495788808511] 3859;
SciE true 419 [31777957714311956474; 32591459146151511583; 59382370514245195613; 12634774787706372750; 80261771717679597490; 5231965822173503444; 35522366417247666269; 76202234828904050286; 65553707996563082618; 31267420099658896416; 1888756942273897883; 49564169925921758882; 26896371302146717250; 3453796096435593897; 77256356405985897682; 60940613283963337192; 84231840348069561567; 71522699426811184755; 16125559650085558039; 24377009207334625589; 21398265765185563166] 3866;
SciE false 419 [43039377882578411607; 96483974406563091268; 58132010650697933474; 6808571617051549457; 44641322305873248562; 5926734528701163581; 10803572745301390451; 94595820490436169508; 2120339954779098419; 31004330598761323661; 29817802760686036424; 91199185083435044560; 58672821671059436042; 6283183988971676171; 80351049884807369692; 25540522646569156737; 76931861472021530205; 14612396248072881687; 75937219104031534053; 21663973262471160250; 4874714328778645046] 3886;
SciE true 419 [30560184455295338311; 93278523304045916417; 868344029413064247; 12837367826049045423; 67853051926690244174; 55359573699565056678; 92139481740860854099; 22817813237960600399; 77037491278574640714; 89724056823418435348; 74206718217130161671; 86766619437408282353; 45376238717713093111; 9248427925938014407; 32251207418440491049; 50267874747490793904; 57949746664441619428; 77008072140505229856; 54933236035134553227; 17149688808050909109; 61071741567615806086] 3878;
SciE false 419 [14731022764800577450; 76323466261127801266; 68978929685852202662; 21925126134757390152; 75368191554075802349; 47695201272651487154; 79447045803259729211; 48461843441522234883; 20673353936281071380; 26458715585279940655; 22503660540863163532; 39614392091314141372; 70475604582290542316; 43969465471156379207; 89777307458279657731; 87548911645767837409; 85716327203655570006; 65924763541245570431; 25018730953497540420; 35611198609060054036; 59451463714359673883] 3876;
SciE true 419 [19337101201047616368; 51979977873849815201; 54166823985116970133; 54754546988941132695; 77711500730195658714; 70950997134336981034; 31086682621247436397; 77871014312850406139; 55901769368837825963; 51667208487184694827; 40800643272424779991; 28351688854562154539; 71953263130614015800; 20098229869745859894; 30466875754356791164; 6293322830893824827; 93430059064862735548; 84136140704823135667; 42523909868162630685; 18330004990197702699; 49275120056079303659] 3886;
SciE false 419 [12227129544468019683; 22714188336469395437; 99528655308660780290; 45376697254656992304; 13914328838469854814; 92282371262647600319; 48345343735593185181; 82244522318050219868; 20197392464693676869; 94111326730255275023; 52230319783732353803; 98721468772230770731; 13054715449739688521; 53897194353293670452; 40273026366003277455; 97387759677951474788; 73998841711656546026; 65215581067980390139; 87319412981654809694; 8274662855691611421; 14797196994579030394] 3886;
SciE true 419 [22539427971039481337; 30132195222784608606; 72808366725234193199; 21608242677709201301; 1730017568618940387; 80624655658443280625; 7806800829083600523; 35608720277537783466; 81375099480362430461; 11788082565163742945; 35749435923154518752; 1057177503103054448; 39584390202874137397; 95245927704330625363; 8801894403078850455; 21015396739058039904; 34973852258541525535; 15945934991226855813; 4009652327985936677; 50074123755765281165; 4408220141102508988] 3900;
SciE false 419 [71643084447983998324; 1645632148086072649; 72556438344926056308; 86761438900145339165; 20049723485983753123; 26128554048010963966; 4316927461362103865; 8245407247080119623; 91276402685419928921; 36207247996014992645; 42409151801987512604; 46291417651434817931; 32020671793944732365; 28930919799419978636; 2068242954640635734; 29826943964696981250; 59008890604789388111; 20959720512681214619; 30832287558541084258; 45347822419317490429; 31133991641343040178] 3896;
SciE true 419 [81644882187863216455; 79306713364324969529; 63188554825845363889; 43358709285367943987; 31527089615801876841; 65238686196139259462; 84567648188045323661; 7157134409620433695; 38394549817819841884; 4984829755178878496; 31508359748598293908; 86866340400921310357; 49451129412120143251; 32555243530377684342; 8513184398960820507; 49358606126908781562; 5958389598355467402; 34482304941675118284; 40278517691227161530; 39302665304535546270; 24854410792125144183] 3913;
SciE false 419 [16475213964094628493; 62877614520334022611; 34416872542511036509; 3292431629454713160; 92572798603459668523; 4074721433239361527; 65663843040076278100; 33156664065685616539; 36183863803105746845; 44489148982002002938; 40770563613782847164; 21953968322446455591; 83601763531228244997; 92715050890430849696; 65828774785076571574; 60220003174488334162; 50138934421465607470; 22294930215603878448; 48684750779659731660; 31577985806177412828; 67774589836330927302] 3909;
SciE true 419 [27252113969680952994; 41715009838949649964; 21267970748127387942; 46150808229212526459; 44521489483694691126; 28142654496259852590; 91473051026293249129; 17015090378503101598; 42718995561969295987; 28455000996688425323; 18736938407695872149; 92040673750498007508; 27311788902059688797; 22180304509296030179; 54822695748748231687; 8623509386710425899; 63535219430522641993; 10332522879831628664; 40841398038561588211; 95841063032347800891; 64476293746183683265] 3918;
SciE false 419 [30982803683328972402; 53305036071954091115; 66753909131277911356; 2408173471547908575; 35313794361514904813; 26177488032242411613; 77596717432016451236; 44811307650307054045; 90706237183038141090; 38683407727595071804; 13860365099081065274; 79130488360905891764; 40145764428674343198; 58944670553126024162; 99845506139097034546; 92567004142942536704; 3572679696361490042; 57629650485024410815; 41649146267182092109; 82328246813310162367; 58980165424968275530] 3919;
SciE true 419 [31184485423281706234; 91036732289657335074; 13832507926457015932; 52983290479204840192; 16725223121095997472; 89450032202071622375; 27844479731770368875; 76070104525435545769; 82075404099905679149; 37160395443141170519; 37819774581244803853; 44601521390859405583; 81911851928598169461; 27203015916352198823; 55235037911965096620; 28034072817342667208; 33202426810659665728; 93844188114531958663; 48348496394944508931; 69208156934350761799; 38330754599286016819] 3927;
SciE false 419 [40176116201384615829; 18653643854686533417; 39256901472122494717; 77117835880137214283; 5185880753642148431; 61722639131585378758; 81265124678565385635; 10819300365994985552; 1762438713855775555; 56303864646993502470; 95076687095249367160; 45058142041204604663; 42927002955943209769; 99545429960581790342; 97534318069096952885; 95493550340930112663; 39764388778470514703; 42026175228442847912; 1453827765259195271; 50170960088407760967; 82353686621269454174] 3931;
SciE true 419 [29335251220779246657; 24708361962702838075; 12257245204898907582; 81151521149288198605; 78669957671100428344; 91167930623516543204; 69210318982112779752; 93723438016438554932; 39759323131500109799; 55689513450910891084; 16639492364654422425; 69041081758528619296; 93224948229525644857; 82147224527061801763; 54777441715497450426; 25047597583509251331; 86121740127086888333; 21513426179986959881; 7760854710143672144; 16165670892517393366; 15170916101754672074] 3931;
SciE false 419 [54642528371331376229; 2211417009713382234; 97786069915339130430; 52447255267251674324; 69663841140968376001; 44650509685918206462; 19348685606442577403; 23194443123546526155; 69057763180586705210; 8430958556197446857; 41616490112535244465; 58129117952086640235; 63182237763455018691; 71950785732060039630; 7655350176515560911; 57327410406544565430; 38104226721588430410; 75407943510547470023; 930393397891588414; 17520258597600322252; 89728099800666880664] 3935;
SciE true 419 [97292588319461477718; 84841075002032386058; 88684417872895166501; 9524560354530261297; 91084385159969891499; 99595140342759777651; 28778524664577795795; 67062719664630743100; 45704811267469900837; 169990137413432198; 48711172324422336712; 68853881604488167137; 29346109215837307370; 3956701873170810535; 41347810322359277016; 45114000885814760837; 31159347145158824033; 65997660860793549850; 23000468985180194753; 20937333641632048001; 33341693204188699298] 3959;
SciE false 419 [47694496086513948267; 66534091233919900444; 5015039248541450409; 11344362235461138946; 21857762072021131388; 34325734726834063889; 9629520182162479209; 91210622919305976457; 354838900697915355; 47929746679020417217; 8497813503452653832; 20119305163808441124; 81432393296595777168; 72901848399578087118; 9801765168524626522; 89955818130745845769; 73687693879219534328; 19300679899042788763; 5070394290975210619; 53786660811885052014; 11866088281680601819] 3945;
SciE true 419 [17649199905114280075; 45839846558554829129; 76620252464842273755; 80263797947565681801; 93716424547323856521; 82931716833662444276; 88987812217924881134; 48942832920209202780; 4286067199966289072; 23539529039577430765; 29730184372934789784; 92167928485671739332; 54771347772080143711; 64276899174308351178; 5771686669708941038; 92891565509832347878; 13374946165259909209; 38736355192989001102; 61441972552363684684; 84661671799009684662; 99048763871064905830] 3955;
SciE false 419 [35899034931986951989; 60462071555753206116; 76025349781729028405; 82058462710889400945; 19460790186515884754; 51041964955509416165; 95590732852631791183; 82989544022601578923; 41742060680640764682; 63653774654267472801; 45771068546137531807; 76732712173568113609; 43687564795744797485; 66890026864197642355; 81320584328392022156; 30451200152098360237; 75534672700488428360; 98636947049486484476; 61187688585818982332; 59625343158225301647; 52352754415126459322] 3960;
SciE true 419 [19752368155418862018; 39300918107886511873; 2323178958106358939; 53232790758835551428; 36662302760732724073; 14571460050902457980; 43204930352639687099; 44884967612449664794; 99654993747221379149; 26306818504977617511; 68284606455361545342; 35880997573514930074; 87968914576936788002; 25680134561286251383; 10487244566875413513; 59878393828676853523; 37498643693268022865; 4730390487258558464; 25503213057683457133; 87921752193082696441; 68190121473910307320] 3961;
SciE false 419 [79132325029259467433; 8543465423399627247; 35014950183376681855; 96560189169734969688; 99586682452397952316; 13107384719793823299; 71772493133078886899; 60802391631670884527; 84022267753328108363; 94714818980893949035; 92825621923548724753; 35884444846202269336; 98463761414936606728; 50492360293830876163; 36735683124098632231; 86211795588505405106; 55983390041473439235; 38311087273093745703; 4643664726786648464; 20608891897773308549; 99173214682496085131] 3969;
SciE true 419 [67567403781681682314; 59017856757400385631; 8545617236203836863; 4560645251838430840; 6633553473649241561; 34715022261748672628; 2773833438372587307; 94734392388132740561; 34441970736694169294; 13339197778785853698; 88885962124749680918; 55227272170391353068; 42192283610622246043; 42874861657902950871; 73204281549245184578; 78711377368526432089; 56778570955360555600; 36987809009947761624; 6959359119542644113; 77112284730958366576; 98225156863276210962] 3988;
SciE false 419 [33337821230851562243; 50487043375849962578; 11715934009555438539; 73522098807856016021; 30221302822359957418; 46434860674911756198; 39969798240763737296; 89437600755947841262; 32797349994796839234; 42085071561791077205; 7339630893519999851; 77085416444957396003; 74928699391883762868; 95327820064410351405; 77973490399048818036; 58917403776583560895; 77225005527243679912; 92952259420010916802; 63489313206178734189; 42590161366472155505; 86557511873291157435] 3975;
SciE true 419 [55042806244687663302; 18042765864564503113; 90484086021524319426; 55922241169026610988; 8913238053673771473; 24199992201141746324; 16577028982880950599; 21560832014585515461; 59953514835692297571; 98624460138372490644; 21079936279656244554; 36941178383451815202; 54790273137223179029; 42282259700214275988; 38313695853961948207; 81500277283081008175; 29408943071986504733; 70228877468623927039; 66222349642944168405; 1128508332870716286; 15814575632963870602] 3985;
SciE false 419 [14032239906520759865; 61656731521627011936; 65680211365714677690; 19950752978625171326; 1922233669659217332; 44483785245266671754; 20722331302317437344; 91078279000544261762; 13680244684173635204; 99744594872218530467; 7536167336525955773; 22054747885476228104; 94899001897824190101; 41709039993764829167; 58319996093517332252; 87133026094986971382; 79856007401225957686; 49150695788958826519; 34428460692382089442; 3821490393449764520; 16747292788357171622] 3991;
SciE true 419 [59544105952716642079; 86447913810681842252; 61588258941628516144; 94348369915591872713; 60211719560830158669; 26112040553715758898; 4016959288936284163; 8293407292268552485; 37074102934300643546; 11221378741253158285; 449668001479240549; 6568783436961598223; 98922364354783069718; 9149099964945245590; 75013668723919345721; 44685786672884017062; 25379160865208857089; 82840487791466672513; 66799132460097499230; 76656482423752082708; 19387489060215105682] 3997;
SciE false 419 [27366690604718050727; 26023169974611268682; 794351661570936534; 28263158125425769571; 43438664169149296231; 29102866451323253527; 24389475069870039303; 77453582217611690862; 47706374762769394884; 21395268462826876678; 61503341133482960683; 67312201549966544835; 6636639317823498750; 68336121766601956566; 65911952574708926889; 48579602464605030357; 62764586982875913794; 57800745958110542566; 55823510544066323944; 26930077466884284586; 13858285774480434166] 3995;
SciE true 419 [52901045121876085868; 19319757107566167795; 80416881751599834743; 68118621669660208225; 77623004428945224985; 23923392029244991286; 45308058421258409978; 68825125545075837777; 12822085703038291640; 41364167608603375215; 19434605141673380931; 54090831050232799521; 43003880126854693406; 88328239696131466553; 27541112728554860980; 74016752171768446546; 12551936776500385094; 72733164678170932577; 165234567981015436; 61673880864439139453; 32678560003083646061] 4014;
SciE false 419 [25103502045342003517; 83567297155154688568; 93024318828663789900; 12661723294826203907; 83878597958992555450; 58110533109994349460; 85398447931742030923; 49410057280566727774; 23153591584897755902; 99827422511247630160; 40419657227630944973; 56402556557295763938; 7842282142455216009; 46995033810774143443; 79028722954541114324; 11219361487609382441; 19755990902755020855; 61898571215520490804; 98892857910599943118; 79553456611230859026; 17985953397369378837] 4005;
SciE true 419 [23502351779710983053; 52152245769095648021; 3619176026623510937; 80342544948904438978; 14263697173601831202; 2439011672520214971; 76755759705848456124; 84321020380192850734; 2337364071229690729; 50241834968085910802; 33750468449385391951; 43123349426875929333; 65850305208619692983; 27510250784022611617; 68712111185511180165; 21930407315699597088; 67029565580419004804; 38284315355059762092; 68917287024919113707; 53234492715224568477; 41423223831300885498] 4014;
SciE false 419 [16896673626278466828; 30099995116732944922; 55819901751799762455; 17425494861283823649; 80669800032988546768; 41476586241224004205; 80764807250405268834; 98427903788444969458; 27131978196161549833; 63932115383987975608; 96293845931908566490; 77245629388199317202; 57562585473223126971; 17582577484817882061; 99774213315868236898; 6798920132582690755; 50143022456926670794; 59095612054728554152; 3967653790659583694; 34447602610783961298; 10174051293757813323] 4028;
SciE true 419 [18599746629496791495; 15889010628413207684; 53747286344415555907; 31762943842176583992; 56819280730561545062; 75688373100981238586; 48143777417656504542; 91183551776013381999; 93523539939946513899; 18201845624732840871; 52904045182053873082; 54177710849364953738; 8822859679259608302; 71414523453135260968; 35540978058836348671; 10338985908234888372; 12229799379723101351; 72178886846339759731; 77234959762105264316; 40017961989360297701; 41013721174488967139] 4025;
SciE false 419 [21650134798416644344; 80097667242403746105; 57397910525290878323; 56417547448830395814; 38171557848567055908; 81019600297752398044; 58819998351535951821; 76584215138988218761; 76637032441006116607; 30722114892836523095; 65448767685513814403; 58420687478371602366; 14897828423480510677; 4998325471892093871; 64426916942212751739; 27694737027339809849; 34561717891700078296; 41209113233085599060; 40851505978976391829; 45853208284708790325; 35890484954070016256] 4025;
SciE true 419 [62307605012274009328; 98908861791738193502; 37282705264682396481; 19154175815569272453; 95311328445454328207; 67970470982625447477; 27219393470529616265; 17229549652090758253; 98286112250685825533; 7068551111988734119; 41992328855918314346; 75117354967569293356; 70183406857790525819; 30563685240806065312; 69051925303805247891; 99881981610986358501; 58240821162511934; 3997989091031982689; 84975189218244507370; 9987984436292720751; 4215394433174630209] 4035;
SciE false 419 [83799441383233166777; 69641692187909680842; 26489666054240991814; 50766539985679569660; 90118594557648519096; 98489277463297371252; 73623367335011403313; 70519534658923493375; 99469225523152918764; 79566997186330129501; 70957402473966609458; 23582257618601961039; 59449500162416613709; 29869213178315982248; 18961865754621465108; 74237777125681329120; 82386783217902476131; 7791565375800791670; 59463966717170562225; 12711091723745499861; 62092097267480110793] 4038;
SciE true 419 [24983193877273512499; 33569841872302167045; 46450126885306993217; 65936868507120881569; 18943212840306778071; 65138406218277535476; 3995067748704456476; 90561203093029952128; 17824692380235501677; 88087140117093737463; 27034576399414997810; 68161568761443152476; 82592472730419353837; 28415932253691470367; 97954497468020733071; 92436009292636425361; 78156041776610336767; 27633113961717201464; 52629302052501021373; 97317687047897768352; 44724828295403337157] 4054;
SciE false 419 [25660169935604716958; 61299305442084211000; 2392655373170697969; 63709372784849555445; 73396749514556684811; 34255625285227759086; 53419203478346947891; 44669203524776413225; 55181130654096762184; 63286303501478340854; 84484229121359440886; 59883447520432273506; 25687727115517526151; 95611240125782286751; 10293604039419292975; 39384365150623157201; 85132150475407733148; 45169901147384925753; 81823075609683199049; 58415235219346330181; 50492631729409703534] 4047;
SciE true 419 [92604790957976681780; 74817399895738283367; 36568880293525375929; 12035381536484945150; 1432352102244600316; 56844666335798204536; 78565553135112371810; 40995510339698114319; 63568138239030470141; 70965804168632389598; 93033624995674368449; 50955932955926533678; 96705470558472161787; 85500893770652748453; 2059356002273647233; 97025214459861275841; 3066419655508092854; 35254900144099211212; 28821235889135603451; 94133283201777181105; 77962294000635490984] 4053;
SciE false 419 [18437255115548440516; 15657046789737878763; 5136836373157236066; 26186882815743402249; 15651196522290725244; 91790657958071151466; 55268531136991458618; 19517867921119784676; 76778138898955134723; 27845390679197765925; 45591203940790718966; 90733943576031139050; 88255965526931033081; 91430589098097361563; 31690210958063467103; 17926793130615766639; 52177751191472962454; 45336212990807112339; 87965496275146056485; 25309350041429427907; 62055538125051191263] 4055;
SciE true 419 [11606583302351642115; 8855116843826134409; 20992387792295008018; 97656160030113506597; 17014889796413516559; 79716166621640369470; 31748810378351728094; 70627819269272040538; 93099430828305360869; 13815065679468536979; 22860410587238076238; 45654802294586221731; 56153703023318155727; 5836599140713698639; 88684278283050087570; 18939071100287430354; 6517930816263318731; 4587341387525613016; 58328760923269192223; 50430302431043874591; 53802458541735367083] 4066;
SciE false 419 [19539384228634883370; 2142325536362543862; 18458413805746526117; 75638326202327736928; 86085361993494556988; 58464541986053338421; 71447729107328338291; 75389079266007652833; 48898892140701947519; 95295086846548562023; 33410086773988546669; 79625629441465149296; 93073027507435591156; 10661820497768421648; 29554694359529882491; 12237329520052572502; 61780051119057529324; 62239423609885127320; 60708783236298522980; 12575568784987338479; 72879783967777668482] 4066;
SciE true 419 [10178905614562734991; 34672444776521927236; 38534656530831545663; 3502910634206654597; 28052360804263455573; 11764923875964661241; 16741676870509979653; 6128169898646305813; 16818005125586893062; 60357958506655443512; 55972448301434003772; 74563317126265551138; 94584517616397116874; 29855957799860858799; 53223345827683589248; 48335567873868846814; 18333015258461963552; 51555253349904388118; 45133701087477703759; 21456995900391454456; 13822765070390795204] 4076;
SciE false 419 [96851160441827271871; 69885353826748281153; 79088322434956974983; 60987157033989239838; 29773801556198160350; 22434570436089394086; 23617032022179665274; 53083937514232921886; 55939566566490614115; 12022809571827914467; 16343271968652087687; 80906813909067232395; 4069400659055158024; 90102750032602734532; 20953773062583450654; 40948558174906523047; 82465651233893337504; 56388720556668325372; 69181968448881866104; 21891025211971232471; 86281449367523210372] 4082;
SciE true 419 [45196693140056802653; 14257388724745948285; 64954678496555303318; 92454125505243392136; 12373193487048871777; 31059026121572242822; 69264980255405982295; 51283488647985798327; 96113148725157785976; 80001158355678218212; 92643275342346742546; 88870779416814041600; 65775764422549670598; 35465223965051676284; 53639803762492548946; 57161186413887774777; 94215508051204350199; 54633179344984463143; 63038879206483166569; 2856968474737127622; 78456237467945997035] 4082;
SciE false 419 [15713671088971998029; 95026734241181998669; 66987714102472555509; 69740124056770947499; 23695501573369110222; 27183731519190272230; 35153638525138624528; 31127137768163778845; 95177090263838361463; 98577238519826152912; 64437713152549290235; 22297347535250861710; 40183577056619596108; 63333597896701575877; 15664525954679663713; 30437584862597542706; 99168681511295090636; 75546654993519301030; 86707210738931304655; 36909927918467047600; 38513113091996426605] 4090;
SciE true 419 [53304527034889966607; 22227330405587248910; 17167301207804284537; 27375807484155498611; 98671546657180670333; 63394298564100439536; 97728190710726262706; 83276076095333269343; 4954254886450932406; 28307525739835055200; 53104341285654318143; 88160885575429906143; 62265774378485017411; 90473077785698266650; 42384417620872897343; 43592972700734382827; 6292662904913397037; 98517120085589114964; 39506943645454805306; 46992352820500579123; 33910682145073340962] 4118;
SciE false 419 [16676835428376640715; 77802412488696004497; 11957027566942127617; 61134096595816278806; 31015557832780493698; 86329776650764357760; 93308866323055534360; 26733043092405947345; 92871392255092740543; 46624084347477100512; 51694748171992846449; 34769034564259749601; 18028120028025969086; 97532884095560674831; 9585143261990641534; 32635790428810917740; 18238355505458020668; 81216341210403544410; 2811931161585223054; 81428422238994452116; 36755094835510720724] 4095;
SciE true 419 [14126585880976172240; 28878326842612564197; 1416534141177225121; 85889286544369008021; 18141426754873884615; 38323232484472969257; 18495870183923712407; 89811107980293196475; 86515894396288778610; 45760859831134751460; 99525426464521354063; 51027354336958395516; 39615478915327440966; 25668453940148522378; 86462816893311173612; 93888850134880787288; 4551464760829414378; 1083996407457768002; 6987764328049183404; 37221231946855127620; 75124342473548913183] 4102;
SciE false 419 [23083104305246749669; 10148549159495533494; 16956117798635758474; 31603541117652849607; 90781377278862616235; 5956325564482454131; 13474440221942936628; 61349974468620925680; 52485846782793809373; 3001430407831489791; 11340196119969379737; 90303653956191972950; 19278309035742781586; 5346430009339701644; 13064343440101117843; 61189474393692741194; 86769314753344151828; 76281357647956702085; 62926534085009910800; 61643269716956641675; 45341189838945928783] 4109;
SciE true 419 [24078022701323842958; 61140407624237862773; 55892206044259826577; 37363603929815527188; 74664064199671967063; 25600102454823464055; 171382030735603654; 5685798535894131762; 98330223110403293802; 70765033485841977788; 99637347951407352201; 66777572814922748389; 70951751607090673256; 48043364404247421870; 59867335652137980448; 78506172516513694205; 90731414313562606732; 38250478822173376182; 61953228116590176829; 92703011735547409921; 78314534958819298249] 4112;
SciE false 419 [18313595829251894497; 60503530467588469911; 55031438727757967687; 49965886678435029620; 61181287960703762803; 35216793699541731149; 75445459770147177946; 11962974363535230471; 46625879798400817501; 70849825426463124013; 17012092634634753607; 21666184469247712485; 68218447018503439144; 57807230828925146077; 80860621834551211091; 33777852022441513546; 10639547219829714186; 53517645664866997895; 23857420510449377850; 39272501812780485003; 48381642053566410033] 4116;
SciE true 419 [12601222152513732025; 45949749620421788217; 18629343069673445654; 33931422637937808773; 28876311631728056228; 44678887535835468245; 36043492402074967755; 63383676844900328932; 21628129552217273683; 37210501812961554557; 59772547159676582838; 62775687376130726991; 48427888105295695010; 56478801014645620427; 24002160207173909448; 98546124565600884810; 72239132010311995571; 45589590483242535699; 28795171089919452477; 57131479373556439245; 82104705160713779062] 4134;
SciE false 419 [16836604627729351016; 3429014863631690367; 87362894517752360224; 12395748094792141706; 94746872953314999754; 43724767279024361048; 32044453813272937451; 38995771135615176278; 9633529266868671602; 26250391694798694876; 48487638384092985674; 92440572674475246208; 57708896880799366653; 68911153250724959533; 45253685569312626528; 19311784209433183572; 63502394158623039573; 33977649700603174716; 22964880123645440556; 98117119462637427953; 90508261713952891507] 4125;
SciE true 419 [16956893127292520715; 57725745876103306050; 77010951553066110351; 71564121090375193378; 42620319620351135882; 65436720502927647464; 9042054261477345699; 56183412771593257230; 37774295338456989336; 45145248583087933253; 27005115151764056910; 12581780241328721378; 27314847120513941911; 91759062244919433162; 77319925062092287213; 77736117823430179848; 99537795765127277360; 69099368057853843273; 44016055255950988474; 9274234428495754329; 10738203596304789237] 4134;
SciE false 419 [10176099012221702502; 16923713516399403029; 66816271519413391281; 5199185772521006996; 83479264423185942932; 41214858467389797652; 87638340328062117674; 18513350168850342673; 57570143706854964966; 20254290056680468436; 18956585326439974340; 84812645024300078295; 72882612779695025887; 64034504213699335289; 86668554864066000671; 31714265139750096678; 92609006523609004458; 87364229863105850010; 79542783790916759723; 80925802646245832123; 54983845999720768830] 4143;
SciE true 419 [67737632629787405736; 96796313621126600561; 54890974788550694775; 51009038904992845229; 94085332993877444210; 61371314052275747115; 33023191470879190329; 89601838624852656315; 34861034316002345415; 33217935503979032914; 98635482056118832013; 36776864744093196944; 67749936600862074255; 12846874424071192193; 88398253304271863090; 78265107269423566213; 56156034743706318227; 58746759888053556760; 99079004613168051847; 33474224126188214072; 56753772350238557958] 4151
].

(* tables/A002445.cpp 19-7040: the entries in the order of the array *)
Definition A002445 : list entry :=
[
IntE 1;
IntE 6;
IntE 30;
IntE 42;
IntE 30;
IntE 66;
IntE 2730;
IntE 6;
IntE 510;
IntE 798;
IntE 330;
IntE 138;
IntE 2730;
IntE 6;
IntE 870;
IntE 14322;
IntE 510;
IntE 6;
IntE 1919190;
IntE 6;
IntE 13530;
IntE 1806;
IntE 690;
IntE 282;
IntE 46410;
IntE 66;
IntE 1590;
IntE 798;
IntE 870;
IntE 354;
IntE 56786730;
IntE 6;
IntE 510;
IntE 64722;
IntE 30;
IntE 4686;
IntE 140100870;
IntE 6;
IntE 30;
IntE 3318;
IntE 230010;
IntE 498;
IntE 3404310;
IntE 6;
IntE 61410;
IntE 272118;
IntE 1410;
IntE 6;
IntE 4501770;
IntE 6;
IntE 33330;
IntE 4326;
IntE 1590;
IntE 642;
IntE 209191710;
IntE 1518;
IntE 1671270;
IntE 42;
IntE 1770;
IntE 6;
IntE 2328255930;
IntE 6;
IntE 30;
IntE 4357878;
IntE 510;
IntE 8646;
IntE 4206930;
IntE 6;
IntE 4110;
IntE 274386;
IntE 679470;
IntE 6;
IntE 2381714790;
IntE 6;
IntE 4470;
IntE 2162622;
IntE 30;
IntE 138;
IntE 1794590070;
IntE 6;
IntE 230010;
IntE 130074;
IntE 2490;
IntE 1002;
IntE 3404310;
IntE 66;
IntE 5190;
IntE 2478;
IntE 1043970;
IntE 1074;
IntE 7225713885390;
IntE 6;
IntE 1410;
IntE 42;
IntE 30;
IntE 12606;
IntE 868841610;
IntE 6;
IntE 171390;
IntE 244713882;
IntE 1366530;
IntE 6;
IntE 281190;
IntE 6;
IntE 27030;
IntE 9225988926;
IntE 3210;
IntE 6;
IntE 15270994830;
IntE 6;
IntE 7590;
IntE 9366;
IntE 1671270;
IntE 1362;
IntE 625170;
IntE 3102;
IntE 412410;
IntE 63042;
IntE 30;
IntE 1434;
IntE 9538864545210;
IntE 138;
IntE 30;
IntE 3486;
IntE 30;
IntE 16566;
IntE 303940201110;
IntE 6;
IntE 131070;
IntE 42;
IntE 2291190;
IntE 1578;
IntE 374416770;
IntE 6;
IntE 8070;
IntE 73743978;
IntE 69870;
IntE 6;
IntE 4940319930;
IntE 6;
IntE 7828173870;
IntE 11886;
IntE 30;
IntE 138;
IntE 231026334630;
IntE 3894;
IntE 8790;
IntE 1806;
IntE 4470;
IntE 6;
IntE 866054419230;
IntE 6;
IntE 510;
IntE 25233558;
IntE 20010;
IntE 20526;
IntE 561706691910;
IntE 6;
IntE 9510;
IntE 4494;
IntE 230010;
IntE 282;
IntE 34098248730;
IntE 6;
IntE 2490;
IntE 7305236862;
IntE 5010;
IntE 6;
IntE 2203871994870;
IntE 6;
IntE 330;
IntE 798;
IntE 5190;
IntE 2082;
IntE 56213430;
IntE 4686;
IntE 368521410;
IntE 42;
IntE 5370;
IntE 2154;
IntE 21626561658972270;
IntE 6;
IntE 46110;
IntE 15414;
IntE 23970;
IntE 66;
IntE 1018290;
IntE 138;
IntE 30;
IntE 1651635762;
IntE 63030;
IntE 2298;
IntE 868841610;
IntE 6;
IntE 11670;
IntE 148218378;
IntE 171390;
IntE 6;
IntE 233649143825370;
IntE 6;
IntE 9315635010;
IntE 42;
IntE 30;
IntE 354;
IntE 15755919270;
IntE 5478;
IntE 30;
IntE 5213334;
IntE 27030;
IntE 57822;
IntE 446617991732222310;
IntE 6;
IntE 3210;
IntE 42;
IntE 30;
IntE 28446;
IntE 112409792943630;
IntE 6;
IntE 30;
IntE 18438;
IntE 27695910;
IntE 2658;
IntE 90709710;
IntE 6;
IntE 750400230;
IntE 41089818;
IntE 6810;
IntE 6;
IntE 285702690;
IntE 6;
IntE 7150110;
IntE 1288550298;
IntE 7010970;
IntE 2802;
IntE 1261596819210;
IntE 66;
IntE 30;
IntE 42;
IntE 207930;
IntE 2874;
IntE 925269860885370;
IntE 6;
IntE 690;
IntE 63346038;
IntE 30;
IntE 2300826;
IntE 226590;
IntE 6;
IntE 510;
IntE 3499986;
IntE 8365830;
IntE 3018;
IntE 22187634681030;
IntE 6486;
IntE 15270;
IntE 1475166;
IntE 131070;
IntE 6;
IntE 472290;
IntE 6;
IntE 48942109590;
IntE 24623886;
IntE 7890;
IntE 6;
IntE 6365085090;
IntE 7062;
IntE 870;
IntE 7518;
IntE 8070;
IntE 6;
StrE false 21 [1; 15471236091149548610];
IntE 6;
IntE 69870;
IntE 78042678;
IntE 30;
IntE 1518;
IntE 4940319930;
IntE 6;
IntE 16710;
IntE 798;
IntE 15037922004270;
IntE 3378;
IntE 772590;
IntE 6;
IntE 17070;
IntE 1561971642;
IntE 36570;
IntE 498;
IntE 25727323650731430;
IntE 6;
IntE 19470;
IntE 42;
IntE 8790;
IntE 3522;
IntE 670649070;
IntE 66;
IntE 45062070;
IntE 244713882;
IntE 30;
IntE 168918;
IntE 21340446944246430;
IntE 6;
IntE 30;
IntE 25494;
IntE 510;
IntE 66;
IntE 37200951384870;
IntE 6;
IntE 1098809130;
IntE 25998;
IntE 102630;
IntE 6;
IntE 9549013762470;
IntE 6;
IntE 30;
IntE 14047518416694378;
IntE 9510;
IntE 6;
IntE 292110;
IntE 8142;
IntE 147436410;
IntE 27006;
IntE 40890;
IntE 3882;
IntE 2489172157290;
IntE 8646;
IntE 19590;
IntE 42;
IntE 42330;
IntE 3954;
IntE 19146039608325630;
IntE 6;
IntE 5010;
IntE 177954;
IntE 30;
IntE 66;
IntE 143870967697108470;
IntE 6;
IntE 1076430;
IntE 9534;
IntE 1853610;
IntE 94254;
IntE 439494510;
IntE 6;
IntE 88230;
IntE 64653847566;
IntE 10410;
IntE 6;
IntE 13097729190;
IntE 6;
IntE 48107155470;
IntE 63042;
IntE 368521410;
IntE 6;
IntE 1935570;
IntE 66;
IntE 5370;
IntE 44458302;
IntE 10770;
IntE 4314;
StrE false 20 [88604023116809390190];
IntE 6;
IntE 30;
IntE 47052894;
IntE 46110;
IntE 66;
IntE 734400030;
IntE 6;
IntE 23970;
IntE 48946926;
IntE 49170;
IntE 477006;
IntE 1018290;
IntE 6;
IntE 690;
IntE 407656409622;
IntE 510;
IntE 354;
StrE false 19 [9504947751577793970];
IntE 6;
IntE 1966599030;
IntE 42;
IntE 11490;
IntE 6;
IntE 171711773909130;
IntE 107778;
IntE 23190;
IntE 798;
IntE 11670;
IntE 6;
IntE 4890134114035170;
IntE 282;
IntE 329240190;
IntE 8693202;
IntE 30;
IntE 66;
IntE 1518018487433428890;
IntE 6;
IntE 23910;
IntE 1806;
IntE 9315635010;
IntE 6;
IntE 734370;
IntE 6;
IntE 24270;
IntE 9748437683754;
IntE 51330;
IntE 138;
IntE 267850627590;
IntE 6;
IntE 22487190;
IntE 34566;
IntE 30;
IntE 4962;
IntE 2879154231044910;
IntE 11022;
IntE 27030;
IntE 42;
IntE 289110;
IntE 5034;
StrE false 22 [51; 45485882746933233510];
IntE 6;
IntE 30;
IntE 225834;
IntE 54570;
IntE 66;
IntE 2328690;
IntE 6;
IntE 25710;
IntE 4392099642;
IntE 24605790;
IntE 5178;
IntE 10903749915532110;
IntE 6;
IntE 870;
IntE 844998;
IntE 30;
IntE 282;
IntE 307960049670;
IntE 6;
IntE 414801644070;
IntE 3848006274;
IntE 704370;
IntE 5322;
IntE 90709710;
IntE 11814;
IntE 30;
IntE 42;
IntE 750400230;
IntE 6;
IntE 110199362466082890;
IntE 11454;
IntE 6810;
IntE 38094;
IntE 30;
IntE 559231926;
IntE 4856945730;
IntE 6;
IntE 30;
IntE 23189639802;
IntE 293154510;
IntE 6;
IntE 2428917311730;
IntE 6;
IntE 6513191130;
IntE 4454142;
IntE 14010;
IntE 6;
StrE false 20 [27010173501635144730];
IntE 6;
IntE 310530;
IntE 42;
IntE 510;
IntE 130686;
IntE 865410;
IntE 12606;
IntE 27147548730;
IntE 85386;
IntE 14370;
IntE 6;
IntE 178577083150876410;
IntE 6;
IntE 30;
IntE 11409244266;
IntE 61410;
IntE 64086;
IntE 16605847131510;
IntE 6;
IntE 498270;
IntE 42;
IntE 65723094690;
IntE 5898;
IntE 226590;
IntE 354;
IntE 1590;
IntE 27372510670045002;
IntE 510;
IntE 6;
IntE 226816592730;
IntE 6;
IntE 342999030;
IntE 42;
IntE 15090;
IntE 6;
StrE false 23 [144; 93038256293268734790];
IntE 66;
IntE 32851590;
IntE 3318;
IntE 15270;
IntE 6114;
IntE 5971862886990;
IntE 6;
IntE 131070;
IntE 798;
IntE 30;
IntE 68046;
IntE 487875570;
IntE 138;
IntE 129630;
IntE 15142386;
IntE 832015863030;
IntE 6;
IntE 20667935594670;
IntE 6;
IntE 8276610;
IntE 1464173668545126;
IntE 30;
IntE 6;
IntE 217946878566690;
IntE 282;
IntE 37463910;
IntE 848274;
IntE 870;
IntE 498;
IntE 522388230;
IntE 66;
IntE 137190;
IntE 15078;
IntE 30;
IntE 138;
StrE false 24 [3456; 5409620810598989730];
IntE 6;
IntE 30;
IntE 45654;
IntE 69870;
IntE 72006;
IntE 1337947899596989590;
IntE 6;
IntE 32910;
IntE 292866;
IntE 766590;
IntE 390462;
IntE 83985438810;
IntE 6;
IntE 33270;
IntE 3193806;
IntE 16710;
IntE 6;
IntE 799613240790;
IntE 6;
IntE 15037922004270;
IntE 7486329018;
IntE 16890;
IntE 6;
IntE 872254110;
IntE 14982;
IntE 30;
IntE 269216629206;
IntE 290190;
IntE 6;
IntE 1418246821361370;
IntE 6;
IntE 3254730;
IntE 16086;
IntE 72210;
IntE 3570402;
StrE false 20 [29663604169293338790];
IntE 6;
IntE 30;
IntE 42;
IntE 185996910;
IntE 1165326;
IntE 1061970;
IntE 14766;
IntE 149430;
IntE 3297710692122;
IntE 17610;
IntE 6;
IntE 670649070;
IntE 6;
IntE 389730;
IntE 42;
IntE 45062070;
IntE 7122;
IntE 25467756676965330;
IntE 1119954;
IntE 35790;
IntE 42;
IntE 44763270;
IntE 6;
StrE false 26 [421072; 47672297314156359710];
IntE 6;
IntE 150510;
IntE 798;
IntE 30;
IntE 1518;
IntE 2010074430;
IntE 6;
IntE 620670;
IntE 106554;
IntE 330;
IntE 7338;
StrE false 21 [1; 52167106353234711830];
IntE 6;
IntE 36870;
IntE 1463321706;
IntE 2110812338730;
IntE 6;
IntE 2090369190;
IntE 6;
IntE 4207830;
IntE 5213334;
IntE 30;
IntE 1074;
IntE 1156891664364527910;
IntE 16566;
IntE 30;
IntE 27118518;
IntE 30;
IntE 7554;
StrE false 28 [45541066; 24556364764691012210];
IntE 6;
IntE 161670;
IntE 42;
IntE 30;
IntE 66;
IntE 292110;
IntE 6;
IntE 51986670;
IntE 1020642;
IntE 37891157370;
IntE 7698;
IntE 1755390;
IntE 6;
IntE 52707210;
IntE 7969061562;
IntE 19410;
IntE 6;
StrE false 20 [23764666736005761930];
IntE 138;
IntE 301064657190;
IntE 2353218;
IntE 19590;
IntE 7842;
IntE 2730;
IntE 17358;
IntE 42330;
IntE 350322;
IntE 573330;
IntE 7914;
StrE false 23 [922; 90209959160675732270];
IntE 6;
IntE 30;
IntE 200903848194;
IntE 85170;
IntE 895026;
IntE 63768926130;
IntE 16638;
IntE 30;
IntE 42;
IntE 88770;
IntE 138;
StrE false 23 [124; 67426447728328684790];
IntE 6;
IntE 30;
IntE 11135340678;
IntE 1076430;
IntE 6;
IntE 619710;
IntE 6;
IntE 42886974570;
IntE 42;
IntE 471270;
IntE 8202;
IntE 14661976348110;
IntE 66;
IntE 235318470;
IntE 42;
IntE 88230;
IntE 642;
StrE false 23 [452; 7650798257176058830];
IntE 6;
IntE 10410;
IntE 618745101945726;
IntE 30;
IntE 66;
IntE 222661396230;
IntE 498;
IntE 30;
IntE 27439986;
IntE 554242538169870;
IntE 6;
IntE 137514053293890;
IntE 6;
IntE 519246666690;
IntE 4053126;
IntE 30;
IntE 6;
IntE 1935570;
IntE 6;
IntE 330;
IntE 1135554;
IntE 91290;
IntE 402414;
IntE 119755772056830;
IntE 198858;
IntE 15433410;
IntE 20118;
IntE 21570;
IntE 8634;
StrE false 22 [85; 94590242330510848430];
IntE 6;
IntE 30;
IntE 60774;
IntE 30;
IntE 5650194;
IntE 4443910573830;
IntE 6;
IntE 88577310;
IntE 92421869442;
IntE 96690;
IntE 6;
IntE 734400030;
IntE 6;
IntE 30;
IntE 6663571987681686;
IntE 23970;
IntE 138;
IntE 117717357030;
IntE 6;
IntE 2985651570;
IntE 4920594;
IntE 69165870;
IntE 8922;
IntE 25775974770;
IntE 66;
IntE 44790;
IntE 66499734;
IntE 8413170;
IntE 8994;
IntE 163252124079274230;
IntE 6;
IntE 510;
IntE 21126;
IntE 93810;
IntE 99726;
StrE false 21 [6; 93861185865178959810];
IntE 6;
IntE 30;
IntE 422828826;
IntE 33432183510;
IntE 9138;
IntE 1389570;
IntE 6;
IntE 11490;
IntE 13173708858618;
IntE 30;
IntE 6;
IntE 171711773909130;
IntE 6;
IntE 15627810;
IntE 64806;
IntE 23190;
IntE 6;
IntE 514298778630;
IntE 20526;
IntE 308099670;
IntE 402738;
IntE 30;
IntE 776382;
StrE false 23 [326; 95402455500348373810];
IntE 138;
IntE 1410;
IntE 38585629362;
IntE 329240190;
IntE 103686;
IntE 565058130;
IntE 6;
IntE 30;
IntE 66318;
IntE 104610;
IntE 2156046;
StrE false 20 [25806314286368291130];
IntE 6;
IntE 30;
IntE 1532454;
IntE 23910;
IntE 6;
IntE 1245000423030;
IntE 6;
IntE 14914331651010;
IntE 142842;
IntE 30;
IntE 221766;
IntE 1181601330;
IntE 220242;
IntE 2564670;
IntE 42;
IntE 412590;
IntE 9714;
StrE false 29 [247437368; 51520275624910204330];
IntE 6;
IntE 11959890;
IntE 68334;
IntE 102810;
IntE 66;
IntE 25981510876230;
IntE 6;
IntE 49110;
IntE 188316982014;
IntE 921974790;
IntE 6;
IntE 2246790;
IntE 6;
IntE 510;
IntE 1103090766162;
IntE 719490;
IntE 6;
StrE false 21 [3; 48265374941423358510];
IntE 6;
IntE 55110;
IntE 69846;
IntE 27030;
IntE 2390478;
IntE 2537898090;
IntE 66;
IntE 25730790;
IntE 798;
IntE 25170;
IntE 6;
StrE false 30 [8027876806; 49929796414310788070];
IntE 354;
IntE 30;
IntE 23646;
IntE 30;
IntE 8646;
IntE 919520393610;
IntE 138;
IntE 92605290;
IntE 71358;
IntE 33330;
IntE 282;
IntE 1325024610;
IntE 6;
IntE 1486830;
IntE 29677461198;
IntE 437070;
IntE 6;
IntE 2375532972870330;
IntE 6;
IntE 1736209148190;
IntE 258274254;
IntE 25890;
IntE 6;
StrE false 22 [12; 14252494343571301710];
IntE 22902;
IntE 51990;
IntE 4326;
IntE 870;
IntE 138;
IntE 2035743565485630;
IntE 6;
IntE 510;
IntE 1394106;
IntE 1410;
IntE 1176186;
IntE 539853967071510;
IntE 6;
IntE 30;
IntE 43366386;
IntE 146424980356710;
IntE 6;
IntE 52870701923285610;
IntE 6;
IntE 96498690;
IntE 14322;
IntE 26610;
IntE 6;
IntE 1624968030228270;
IntE 6;
IntE 59070;
IntE 71120950811778;
IntE 30;
IntE 10722;
IntE 4883970;
IntE 23694;
IntE 192852859110;
IntE 12984219906;
IntE 30;
IntE 354;
StrE false 27 [3570047; 41097023204553137770];
IntE 642;
IntE 57270;
IntE 1806;
IntE 115770;
IntE 119526;
IntE 2476110;
IntE 6;
IntE 30;
IntE 484386;
IntE 4297697351310;
IntE 10938;
IntE 471123735810;
IntE 23046;
IntE 30;
IntE 9624054594;
IntE 30;
IntE 1578;
IntE 3726456501173812770;
IntE 6;
IntE 4983626670;
IntE 42;
IntE 30;
IntE 11082;
IntE 133379136339029490;
IntE 66;
IntE 30;
IntE 493962;
IntE 6513191130;
IntE 6;
IntE 12259209165793590;
IntE 6;
IntE 14010;
IntE 78414;
IntE 30;
IntE 2840178;
StrE false 24 [8600; 30934465564643347930];
IntE 6;
IntE 439274310;
IntE 78918;
IntE 12731730;
IntE 6;
IntE 2730;
IntE 23406;
IntE 963390;
StrE false 22 [14; 42806569060262870002];
IntE 113043390;
IntE 6;
IntE 865410;
IntE 6;
IntE 12101823030;
IntE 42;
IntE 52150441110330;
IntE 11442;
IntE 205353330;
IntE 25278;
IntE 27489810;
IntE 3818598;
IntE 30;
IntE 6;
StrE false 21 [1; 14467910299711778810];
IntE 6;
IntE 236910;
IntE 513114;
IntE 30;
IntE 127446;
StrE false 20 [11515421944774011810];
IntE 6;
IntE 1043970;
IntE 2798922;
IntE 124647270;
IntE 6;
IntE 1212226840600230;
IntE 6;
IntE 58470;
IntE 43665282377178;
IntE 498270;
IntE 6;
IntE 1782690;
IntE 24702;
IntE 757195773923490;
IntE 798;
IntE 29490;
IntE 6;
IntE 3852030;
IntE 66;
IntE 3492210;
IntE 336813582;
IntE 1590;
IntE 558078;
StrE false 30 [1907348668; 76644507968532551570];
IntE 6;
IntE 510;
IntE 83454;
IntE 870;
IntE 66;
IntE 452045469310890;
IntE 6;
IntE 59910;
IntE 355730046;
IntE 2338224387510
].

