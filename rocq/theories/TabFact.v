(** * The table of factorials

    Generated from libs/e_float/src/functions/tables/A000142.cpp *)

From Coq Require Import ZArith List.
From Verif Require Import ModelTables.
Import ListNotations.
Open Scope Z_scope.

(* tables/A000142.cpp 19-7040: the entries in the order of the array *)
Definition A000142 : list entry :=
[
IntE 1;
IntE 1;
IntE 2;
IntE 6;
IntE 24;
IntE 120;
IntE 720;
IntE 5040;
IntE 40320;
IntE 362880;
IntE 3628800;
IntE 39916800;
IntE 479001600;
IntE 6227020800;
IntE 87178291200;
IntE 1307674368000;
IntE 20922789888000;
IntE 355687428096000;
IntE 6402373705728000;
IntE 121645100408832000;
IntE 2432902008176640000;
StrE false 20 [51090942171709440000];
StrE false 22 [11; 24000727777607680000];
StrE false 23 [258; 52016738884976640000];
StrE false 24 [6204; 48401733239439360000];
StrE false 26 [155112; 10043330985984000000];
StrE false 27 [4032914; 61126605635584000000];
StrE false 29 [108888694; 50418352160768000000];
StrE false 30 [3048883446; 11713860501504000000];
StrE false 31 [88417619937; 39701954543616000000];
StrE false 33 [2652528598121; 91058636308480000000];
StrE false 34 [82228386541779; 22817725562880000000];
StrE false 36 [2631308369336935; 30167218012160000000];
StrE false 37 [86833176188118864; 95518194401280000000];
StrE false 39 [2952327990396041408; 47618609643520000000];
StrE false 41 [1; 3331479663861449296; 66651337523200000000];
StrE false 42 [37; 19933267899012174679; 99448150835200000000];
StrE false 44 [1376; 37530912263450463159; 79581580902400000000];
StrE false 45 [52302; 26174666011117600072; 24100074291200000000];
StrE false 47 [2039788; 20811974433586402817; 39902897356800000000];
StrE false 48 [81591528; 32478977343456112695; 96115894272000000000];
StrE false 50 [3345252661; 31638071081700620534; 40751665152000000000];
StrE false 52 [140500611775; 28798985431426062445; 11569936384000000000];
StrE false 53 [6041526306337; 38356373551320685139; 97507264512000000000];
StrE false 55 [265827157478844; 87680436258110146158; 90319638528000000000];
StrE false 57 [11962222086548019; 45619631614956577150; 64383733760000000000];
StrE false 58 [550262215981208894; 98503054288002548929; 61651752960000000000];
StrE false 60 [25862324151116818064; 29643551536119799691; 97632389120000000000];
StrE false 62 [12; 41391559253607267086; 22890473733750385214; 86354677760000000000];
StrE false 63 [608; 28186403426756087225; 21633212953768875528; 31379210240000000000];
StrE false 65 [30414; 9320171337804361260; 81660647688443776415; 68960512000000000000];
StrE false 67 [1551118; 75328738228022424301; 64693032110632597200; 16986112000000000000];
StrE false 68 [80658175; 17094387857166063685; 64037669752895054408; 83277824000000000000];
StrE false 70 [4274883284; 6002556429801375338; 93996496903437883668; 13724672000000000000];
StrE false 72 [230843697339; 24138047209274268302; 75810832785645718079; 41132288000000000000];
StrE false 74 [12696403353658; 27592596510084756651; 69595803210514494367; 62275840000000000000];
StrE false 75 [710998587804863; 45185404564746372494; 97364979788811684586; 87447040000000000000];
StrE false 77 [40526919504877216; 75568060190543232213; 49803847962266021451; 84481280000000000000];
StrE false 79 [2350561331282878571; 82947491051507468382; 88623181811429244206; 99914240000000000000];
StrE false 81 [1; 38683118545689835737; 93901972038940634590; 28767726874325408212; 94940160000000000000];
StrE false 82 [83; 20987112741390144276; 34118322336438075417; 26063612459524492776; 96409600000000000000];
StrE false 84 [5075; 80213877224798800856; 81217662522722600452; 89880360030994059394; 80985600000000000000];
StrE false 86 [314699; 73260387937525653122; 35495076408801228079; 72582321921631682478; 21107200000000000000];
StrE false 88 [19826083; 15404440064116146708; 36189813754477369022; 72686281062795996127; 29753600000000000000];
StrE false 90 [1268869321; 85884164103433389335; 16148080286551617454; 51921988018943752147; 4230400000000000000];
StrE false 91 [82476505920; 82470666723170306785; 49625218625855134543; 74929221231343889557; 74976000000000000000];
StrE false 93 [5443449390774; 43064003729240247842; 75264429306438879887; 45328601268696710811; 48416000000000000000];
StrE false 95 [364711109181886; 85288249859096605464; 42716763531404952459; 37016285002679624369; 43872000000000000000];
StrE false 97 [24800355424368305; 99600990418569171581; 4739920135536767237; 17107380182214457121; 83296000000000000000];
StrE false 99 [1711224524281413113; 72468338881272839092; 27054489352036939364; 80409232572797541406; 47424000000000000000];
StrE false 101 [1; 19785716699698917960; 72783721689098736458; 93814254642585755536; 28646280095827898453; 19680000000000000000];
StrE false 102 [85; 4785885678623175211; 67644239926010288584; 60812079623588643076; 33885886803780790176; 97280000000000000000];
StrE false 104 [6123; 44583768860868615240; 70385274672740778091; 78469732898382301496; 39783849872216892742; 4160000000000000000];
StrE false 106 [447011; 54615126843408912571; 38125051110076800700; 28290501581908009237; 4221040671833170169; 3680000000000000000];
StrE false 108 [33078854; 41519386412259530282; 21253782145683251820; 93497117061192683541; 12357009715654592508; 72320000000000000000];
StrE false 110 [2480914081; 13953980919464771165; 94033660926243886570; 12283779589451265584; 26775728674094438154; 24000000000000000000];
StrE false 112 [188549470166; 60502549879322608611; 46558230394535379329; 33567248798296184404; 34955379231177299722; 24000000000000000000];
StrE false 114 [14518309202828; 58696340707840863082; 84983740379224208358; 84678157468806199134; 91564200800652078612; 48000000000000000000];
StrE false 116 [1132428117820629; 78314575211587320462; 28731749579488251990; 4896282566883532523; 42007662450862131773; 44000000000000000000];
StrE false 117 [89461821307829752; 86851441715398316520; 69808216779571907213; 86806322783799069350; 18605333618108410101; 76000000000000000000];
StrE false 119 [7156945704626380229; 48115337231865321655; 84657342365752577109; 44505822703925548014; 88426689448672808140; 80000000000000000000];
StrE false 121 [5; 79712602074736798587; 97342315781091054123; 57244731625958745865; 4971639017969389205; 62561845342497459404; 80000000000000000000];
StrE false 123 [475; 36433370128417484213; 82069894049466438132; 94067993328617160934; 7674399473489914861; 30071318084791671193; 60000000000000000000];
StrE false 125 [39455; 23969720658651189747; 11801206105714365034; 7643446275224357528; 36975156299662933487; 95919401037708709068; 80000000000000000000];
StrE false 127 [3314240; 13456535326699938757; 91301312880006662862; 42049487118846032383; 5913129171686412988; 57229687167531561779; 20000000000000000000];
StrE false 129 [281710411; 43805502769494794422; 60611594800566343305; 74206405101912752560; 2615979593345104028; 64523409240182751232; 0];
StrE false 131 [24227095383; 67273238176552320344; 12597152848705524293; 81750838764496720162; 24974245027678946463; 49013194655716605952; 0];
StrE false 133 [2107757298379; 52771721360051869938; 95952297837380613562; 12322972511214654115; 72759317408068342323; 64147935047344717824; 0];
StrE false 135 [185482642257398; 43911479684564554628; 43802209689493993466; 84421580986889562184; 2819931910014124480; 45018284166335168512; 0];
StrE false 137 [16507955160908461; 8121691926245361930; 98396662364965418549; 13520707833171034378; 50973939991257078760; 6627290803829997568; 0];
StrE false 139 [1485715964481761497; 30952273362082573788; 55699612846887669422; 16863704985393094065; 87654599213137088405; 96456172344699781120; 0];
StrE false 141 [1; 35200152767840296255; 16656875949514214758; 68664769066777917417; 34597153670771559994; 76568528395475044942; 77511683367680081920; 0];
StrE false 143 [124; 38414054641307255475; 32432587355307757799; 17158754143568402395; 82938137710983519518; 44304612383704134735; 31074869826567536640; 0];
StrE false 145 [11567; 72507081641574759205; 16230624043621475322; 95764135351861422812; 13246807121467315215; 20328951684484530383; 89962893870780907520; 0];
StrE false 147 [1087366; 15665674308027365285; 25678660100418680358; 1828723074973744340; 45199869417927630229; 10921458341545856086; 56512023853405306880; 0];
StrE false 149 [103299784; 88239059262599702099; 39472709539774634011; 73728692122505712342; 93987594703124871765; 37538542446856328223; 68642266073504153600; 0];
StrE false 150 [9916779348; 70949689209571401541; 89380115818364865126; 77954443760548384922; 22809091499987689476; 3700074898207509473; 89657543056398745600; 0];
StrE false 152 [961927596824; 82119853328425949563; 69871234381391917297; 61581044773193337456; 12481875498805879175; 58907265126128418967; 96781676470678323200; 0];
StrE false 154 [94268904488832; 47745626185743057242; 47380969376407895166; 34942387772947070700; 23223798882976159207; 72911982360585058860; 84604294126475673600; 0];
StrE false 156 [9332621544394415; 26816992388562667004; 90715968264381621468; 59296389521759999322; 99156089414639761565; 18286253697920827223; 75825118521091686400; 0];
StrE false 158 [933262154439441526; 81699238856266700490; 71596826438162146859; 29638952175999932299; 15608941463976156518; 28625369792082722375; 82511852109168640000; 0];
StrE false 160 [94259477598383594208; 51623124482936749562; 31279470254376832788; 93534169775993162214; 76503087861591808346; 91162349000354959958; 33697063026032640000; 0];
StrE false 162 [96; 14466715035126609268; 65558697259548455355; 90505965946436944471; 40485317151302545906; 3314961882364451384; 98559598036205915750; 37100428655329280000; 0];
StrE false 164 [9902; 90071648618040754671; 52545817733490901658; 22114492483005280554; 69987666584162228321; 41441073883538492653; 51638597729209322288; 21344151498915840000; 0];
StrE false 167 [1029901; 67451456276238485838; 64765044283053772454; 99907218232549177688; 78717324752871745427; 9871683888003235965; 70414163837769517974; 19791755887247360000; 0];
StrE false 169 [108139675; 82402909005041013058; 329649720646107774; 90257914417663657322; 65319099051533269845; 36526808240339776398; 93487202965799387290; 78134368160972800000; 0];
StrE false 171 [11462805637; 34708354534347384148; 34942870388487424139; 67338928272347676201; 23824499462526603608; 71841673476016298287; 9643514374735052822; 82243025063116800000; 0];
StrE false 173 [1226520203196; 13793935175170103873; 38887131568154382945; 5265325141201353532; 49221442490346586132; 87059061933743916719; 31856038096650652042; 3681753497600000; 0];
StrE false 175 [132464181945182; 89744998918371218325; 99810209360673358065; 68655115249746181509; 15915788957431302350; 2378688844343005686; 40452114438270420536; 397629377740800000; 0];
StrE false 177 [14438595832024935; 82204882102462797533; 79312820313396029159; 83407562222333784498; 34820996360011956152; 59277084033387619818; 9280473771475838424; 43341602173747200000; 0];
StrE false 179 [1588245541522742940; 42537031270907728717; 24410234473563207581; 74831844456716294818; 30309599601315176785; 20479243672638179990; 20852114862342226687; 67576239112192000000; 0];
StrE false 181 [1; 76295255109024466387; 21610471070757887614; 9536026565516041574; 6334734695508724831; 64365555745984623157; 73196047662837978913; 14584749719987162332; 962541453312000000; 0];
StrE false 183 [197; 45068572210740235368; 20372759924883412778; 68034975337796656295; 9490285896977181144; 8942243550277793665; 97957338237853638272; 33491968638562181185; 7804642770944000000; 0];
StrE false 185 [22311; 92748659813646596607; 2121871511825643990; 87952213171022161345; 72402306358421469282; 10473521181390684255; 69179220877461124773; 84592456157526473913; 81924633116672000000; 0];
StrE false 187 [2543559; 73347218755712013200; 41893352348123414960; 26552301496526393412; 53862924860047498159; 93981414678538005148; 86431180030568224218; 43540001958018026175; 39408175300608000000; 0];
StrE false 189 [292509369; 34930156906881518048; 17735520034192720430; 53514672100535242441; 94236358905462288393; 7862688031870592119; 39585703515345785120; 7100225172073010170; 31940159569920000000; 0];
StrE false 191 [33931086844; 51898201198256093588; 57320323966355569942; 7701963662088123265; 31417633033625453597; 12071811696988685849; 91941607780111073928; 23626119960469179757; 5058510110720000000; 0];
StrE false 193 [3969937160808; 72089540195962949863; 6477904063601683223; 1129748464310422041; 75863064934178070863; 12401968547676244440; 57168110272995649603; 64256035374894031574; 91845682954240000000; 0];
StrE false 195 [468452584975429; 6565743123628083841; 64392679504998620315; 33310318788629800927; 51841662233012361848; 63432288625796843987; 45837012213486653229; 82212174237495725840; 37790588600320000000; 0];
StrE false 197 [55745857612076058; 81323431711741977155; 62728861094835817524; 63927935846946310374; 69157805728471059987; 48442346469824434507; 54604453404911734348; 83248734261991375004; 97080043438080000000; 0];
StrE false 199 [6689502913449127057; 58811805409037258675; 27463331380298102956; 71352301633557244962; 98936687416527198498; 13081576378932140905; 52534408589408121859; 89848111438965000596; 49605212569600000000; 0];
StrE false 201 [8; 9429852527344373968; 16228454493508299708; 23063097016070457762; 33628497660426640521; 71339177399791018273; 82870741850789049568; 56663439318382745047; 71621484114765072176; 2230720921600000000; 0];
StrE false 203 [987; 50442008336013624115; 79871448208012564404; 13697835960595847005; 2676714572050143649; 3379642774504229407; 10230505796264047365; 12939596842694895821; 37821062001338805474; 72147952435200000000; 0];
StrE false 206 [121463; 4367025329675766243; 24188129585545421708; 84833823153289181618; 29235892362167668831; 15696061264020217073; 58352212940477825910; 91570411651472186029; 51990626164673073390; 74198149529600000000; 0];
StrE false 208 [15061417; 41511140879795014161; 99328068607632291897; 19394071007858520668; 25250652908790935063; 46311596738506917124; 35674404619250412953; 54731044782551067660; 46837644419461100452; 570541670400000000; 0];
StrE false 210 [1882677176; 88892609974376770249; 16008575954036487149; 24258875982315083531; 56331613598866882932; 88949592313364640544; 59300577406301619193; 41380597818883457558; 54705552432637556500; 71317708800000000000; 0];
StrE false 212 [237217324288; 468856771473051394; 17080570208597380804; 56618373771700524976; 97783313457227249544; 7648631483944708618; 71872753194004018370; 13955325179315652376; 92899606512332119089; 86031308800000000000; 0];
StrE false 214 [30126600184576; 59544809977077527059; 69232416491867362179; 90533469005966672076; 18480809067860692097; 71376198460977994577; 27839655638510333007; 72326297773087851869; 98250027066179124412; 25976217600000000000; 0];
StrE false 216 [3856204823625804; 21735677065923463640; 61749310959022359027; 88284032763734025751; 65543560686168588507; 36153403005183305891; 63475921729322624988; 57766114955245039357; 76003464470927924769; 24955852800000000000; 0];
StrE false 218 [497450422247728744; 3902341504126809639; 65661113713884314596; 88640226521689321963; 55119328515747917449; 63788987668646460020; 88393903082618623526; 51828829226610077151; 4446916749702295233; 19305011200000000000; 0];
StrE false 220 [64668554892204736725; 7304395536485253155; 35944782804960897595; 23229447819611855261; 65512707047229268452; 92568396924039802714; 91207400740421058447; 37747799459310029635; 78099177461298380315; 9651456000000000000; 0];
StrE false 222 [84; 71580690878820510984; 56875815279568163352; 8766547449877584975; 43057664369153039276; 82164623187034167333; 26459997049214155653; 48169496995158656606; 44961729169613882287; 30992247430087821277; 64340736000000000000; 0];
StrE false 225 [11182; 48651196004307449963; 7607616902997562475; 57184263383841216756; 83611696728201184540; 45730260688510087990; 92719610496268546259; 58373603360942672051; 34948250389032461924; 90976660771592408648; 92977152000000000000; 0];
StrE false 227 [1487270; 70609068572890845089; 11813048098675809251; 5507030050881828659; 20355664850757543880; 82124671571841702793; 31708196003716652524; 63689247005375382829; 48117301741317436012; 99895882621790350307; 65961216000000000000; 0];
StrE false 229 [199294274; 61615188767373241941; 82948445222558439641; 37942026818165040333; 27659090001510880030; 4705990626788174304; 48898264498031438301; 34359098720301299150; 47718433336536425741; 86048271319906941226; 38802944000000000000; 0];
StrE false 231 [26904727073; 18050483595387662146; 98040105045389351586; 22173620452280444992; 33977150203968804056; 35308734616403531106; 1265707234244170681; 38478327240675385314; 41988500432417475151; 16516628187437065562; 38397440000000000000; 0];
StrE false 233 [3659042881952; 54865768972722051989; 33454286172951815726; 15612381510140518958; 20892427739757351664; 1987907830880230417; 72136183857207212668; 33052504731852402761; 10436058808776620558; 46261433491440916484; 22051840000000000000; 0];
StrE false 235 [501288874827499; 16610349262921122538; 83237205694398754483; 38896266889251097274; 62262600346757177970; 72343372830591567227; 82657188437388135561; 28193148263779178271; 29740056802397016509; 37816388327405558338; 21102080000000000000; 0];
StrE false 237 [69177864726194884; 92228198283114910358; 86734385827028118707; 67684830716651423897; 92238847852490559959; 83385450621636277440; 6692004359562707456; 90654460401526601439; 4127838730788278294; 18661589181967050673; 12087040000000000000; 0];
StrE false 239 [9615723196941089004; 19719561352972539882; 56079629956908500367; 8191469614547921811; 21199851496187834416; 90577636407442564169; 30188605979216336510; 969995812197600026; 73769583579570682891; 93960896293420043563; 80098560000000000000; 0];
StrE false 242 [13; 46201247571752460587; 60738589416155583558; 51148193967190051391; 46805746036709053569; 67979209466296818366; 80869097041958983702; 26404837090287111401; 35799413707664003743; 27741701139895604871; 54525481078806098932; 13798400000000000000; 0];
StrE false 244 [1898; 14375907617096942852; 64141107677937281750; 11895349373797246196; 99610191175976553324; 85068534747851389720; 2542682916216702019; 23082029730482707591; 47717332780624527802; 11579860725280286887; 88092832111659949431; 45574400000000000000; 0];
StrE false 246 [269536; 41378881627765885075; 8037290267094008516; 89139611079208959973; 44647146988670572128; 79731934194897340243; 61060974102771686730; 77648221728544477989; 75861254848682947900; 44340222989800738079; 9182159855712819266; 71564800000000000000; 0];
StrE false 248 [38543707; 17180072770521565736; 49332508194443217915; 46964384326881276202; 84542019379891814418; 1666589870319654836; 31719296696351202501; 3695707181860352535; 48159443361661549763; 40651887541505545310; 13048859366933155140; 33766400000000000000; 0];
StrE false 250 [5550293832; 73930478955105466055; 3881179999823379827; 62871343070903773209; 74050790704421276194; 39988941326030296429; 67578724274573160149; 32181834187890765109; 34959844079263165930; 53871805976798524658; 79035748838374340208; 62361600000000000000; 0];
StrE false 252 [804792605747; 19919448490292577980; 62771099974390075006; 16344745281047115412; 37364652141085048187; 98396492274392982302; 98915019813108221651; 66365957244160940855; 69177391493159059928; 11411866635786075524; 60183581564279330250; 42432000000000000000; 0];
StrE false 255 [117499720439091; 8239479582716385171; 64580596260950950899; 86332811032878850206; 55239212598417035445; 65887872061375416236; 41592892713800361142; 89429757647497364930; 99899158001222749504; 66132528824767026591; 86802908384782216561; 95072000000000000000; 0];
StrE false 257 [17272458904546389; 11203498659308620231; 93347650359789782279; 90923221833190980363; 20164251967304210511; 85517193022186186753; 14155228928653088005; 46174374182112644856; 85176226179744177185; 21481737240752909004; 60027532562985834606; 75584000000000000000; 0];
StrE false 259 [2556323917872865588; 58117801577675794326; 15452253248887777426; 56636831312265093753; 84309291161023155754; 56544567283555639464; 94973881440657024808; 33807378952671438814; 6081474602138223411; 79297111631430532680; 84074819321903521799; 86432000000000000000; 0];
StrE false 261 [3; 80892263763056972698; 59552435073693354597; 2385734084278836558; 38887865527498969322; 62084382992450207430; 25140525249790280277; 51108334657896696442; 37299463948044383295; 6139715718595288357; 15269633083149369445; 27148078963624748179; 78368000000000000000; 0];
StrE false 263 [571; 33839564458545904789; 32865261054003189553; 57860112641825483758; 33179829124845398393; 12657448867531114537; 71078787468542041626; 66250198684504466355; 94919592206657494259; 20957357789293253572; 90444962472405416790; 72211844543712226967; 55200000000000000000; 0];
StrE false 265 [86272; 9774233240431623188; 62654419154481622590; 36877008915648047508; 10154197851655157362; 11274778997198295194; 32896907749848285626; 3780001360174419748; 32858423205281633140; 64561026183281289508; 57189333333217935399; 3988526100546272100; 35200000000000000000; 0];
StrE false 268 [13113358; 85683452545606724671; 23471711481206633736; 5305355178503221231; 43438073451583919041; 13766407574140869538; 329977976939415157; 74560206746511801745; 94480327202808237378; 13275979858756005302; 92778666649126180654; 6255967283033359253; 50400000000000000000; 0];
StrE false 270 [2006343905; 9568239477828874698; 91171856624614961616; 11719342310992848409; 46025238092339613294; 6260358843553039314; 50486630471730519135; 7711632216305667129; 55490062029660318854; 31224918389668811347; 95135997316305640071; 57162994304103965786; 11200000000000000000; 0];
StrE false 272 [308976961384; 73508879585646703632; 40465920190704088882; 4778715892898655056; 87886666220300447285; 64095261907168054433; 74941092646499946801; 87591361311072737951; 45469552567689103564; 8637432008996947584; 50943586711068571022; 3101122832010731061; 24800000000000000000; 0];
StrE false 274 [47891429014633; 93876335775239063022; 72217629559133776717; 40700963399291533816; 22433264146569329274; 34765595611048437231; 15869360207491754290; 76661003216274382475; 47780647991811052433; 38801961394526875598; 96255940215628508414; 80674038961663314493; 44000000000000000000; 0];
StrE false 276 [7471062926282894; 44708380937293831544; 65950211224869167915; 49350290289479275330; 99589206864815366798; 23432915323556208060; 75620192368713669359; 59116501738803666174; 53781086722524179608; 53105977546192593438; 15926673638047312709; 85150078019477060976; 64000000000000000000; 0];
StrE false 279 [1172956879426414428; 19215807155131552511; 54183162304459362732; 47995575448246226966; 35505477776012587322; 78967705798324665538; 72370201888046089455; 81290772992175589402; 43630615436296198539; 37638474752237169791; 487761173428095446; 68562249057898573332; 48000000000000000000; 0];
StrE false 281 [1; 85327186949373479654; 36097530510785296823; 60939644104579311731; 83300920822903860684; 9865488609988797000; 76897516135297155118; 34491898311282134018; 43942132763743125584; 93637238934799369221; 46879010853472826978; 77066265401639080576; 32835351147974586531; 84000000000000000000; 0];
StrE false 283 [294; 67022724950383265043; 39507351214862194953; 89403412628110565361; 44846410841713848771; 68612688988218723122; 26705065512247663816; 84211831493859308931; 86799109435156968004; 88320990633099706213; 53762725702179489624; 53536198860613811636; 20820832527959258562; 56000000000000000000; 0];
StrE false 285 [47147; 23635992061322406943; 21176194377951192623; 4546020497690457831; 75425734674215803469; 78030238114995699562; 72810481959626210694; 73893039017489429098; 87857509625114880781; 31358501295952994166; 2036112348718339925; 65791817698209861793; 31333204473481370009; 60000000000000000000; 0];
StrE false 287 [7590705; 5394721872907517857; 9367294850142012310; 31909300128163710912; 43543282548744358634; 62868336514307629599; 22487595499819921852; 96779281815798084919; 45059049643495805791; 48718708648432060729; 27814088143652728030; 92482649411787748723; 44645920230500571545; 60000000000000000000; 0];
StrE false 290 [1229694218; 73944943411017892849; 17501765723005994271; 69306620762521167814; 54011772896586098809; 84670515317835995074; 42990470970827340180; 78243654159289756950; 99566042246320538220; 92430801045993838143; 5882279271741941009; 82189204709615293198; 32639077341092590387; 20000000000000000000; 0];
StrE false 292 [200440157654; 53025775995916534415; 52787812849977066285; 96979184290950353770; 3918982143534106005; 1293996807267197132; 7446768244856449467; 53715627964230383012; 29264886150247730010; 66220570496995617318; 58811521293936384600; 96840367667292791327; 20169606598092233113; 60000000000000000000; 0];
StrE false 294 [32872185855342; 96227263330311644146; 57201307396238870899; 4586223715858018286; 42713071539593384822; 12215476391820329660; 21269992156457712676; 9362986133782814015; 99441328640627721748; 60173561507281240248; 45089492205567074558; 81820297436017777661; 7815482087126230630; 40000000000000000000; 0];
StrE false 296 [5423910666131588; 77498449501421284184; 38215720379413698342; 56726913116573017260; 47656804032908495650; 15553604650354393935; 9548705815522591555; 44892712074164312639; 7819225703574088519; 28637648701404640994; 39766213918567302205; 349076942933314077; 89554544375828054016; 0; 0];
StrE false 298 [900369170577843736; 64742617235933174607; 43809582982673924866; 16667577351120865239; 11029469462810277925; 81898371958829393225; 85085165376750198204; 52190204311275898086; 97991466793298694201; 53849684433170405070; 1191510482172166030; 57946772526930136930; 66054366387456966656; 0; 0];
StrE false 301 [1; 50361651486499904020; 12017078400840159442; 16200358106545452649; 83485417637184494931; 41921400289316413611; 77028117124508668717; 9222617917283100155; 15764119983074980525; 64574954480881931656; 92897300339457646691; 98982250522751727106; 77111011997332867420; 31079186705313431552; 0; 0];
StrE false 303 [252; 60757449731983875380; 18869171341146786283; 21660161899636045172; 25550163046995148478; 42795248605157486777; 40723676917456344471; 49399810103560826066; 48372157156596728308; 48592352788164518364; 6746457028884644254; 29018087822290153937; 54650015551921726612; 21303366492656500736; 0; 0];
StrE false 305 [42690; 68009004705274939251; 88889956653806881863; 60567361038491634111; 17977554942180092854; 32397014271615265381; 82301399050122215682; 48567907501779605235; 74894559464847084134; 12107621199803603527; 40151237881504878975; 4056841967036015445; 35852628274771797464; 268937258948624384; 0; 0];
StrE false 307 [7257415; 61530799896739672821; 11292631147169916812; 96451376543577798900; 56184340170615785235; 7492426174595114909; 91237838520776666022; 56544275302532890077; 32075109024004302800; 58295603966612599658; 25710439855829425756; 89663134396122625710; 94946806711205568880; 45719334021266145280; 0; 0];
StrE false 310 [1241018070; 21766782342484052410; 31039926166055775016; 93185388951803611996; 7522169175299275197; 81204875855764649595; 1670387052809889858; 69071076733124203221; 84843643104735778899; 68548278290754541561; 96485215346831804429; 32395981736968996572; 35903947616152278558; 18006117636510842880; 0; 0];
StrE false 312 [213455108077; 43886562907257014573; 38867300561593302912; 27886899710221263324; 93813098151475334023; 67238647191519730342; 87306573083301055694; 80225198097362954157; 93106614014553970745; 90303866009781148657; 95457039655070361843; 72108858758667410445; 75478989978191912006; 97052233479864975360; 0; 0];
StrE false 314 [36927733697396; 92375382955463521196; 24042997155641403824; 24433649868278555214; 29665980205232786095; 32285964132913349317; 4037143411082635200; 78959270843791069322; 7444224517836939041; 22568819692138717826; 14067860327172598963; 74832565249462007115; 57865266227200777205; 90036392016640737280; 0; 0];
StrE false 316 [6425425663347064; 73316634250652688145; 83481505081604265418; 51455077080468607287; 61880555710504780586; 17757759126922781165; 2462953528378524937; 38913126819646062040; 95295066103627393173; 26974626432136901748; 47807696928032219692; 20866353406389238110; 68556323532935233826; 66332210895488286720; 0; 0];
StrE false 319 [1124449491085736328; 30410993864220425521; 9263389280746448240; 4638489082006275333; 29097249338336602581; 7607847211486703879; 31016867466241864043; 9797193438060857166; 76636568134793805322; 20559625623957805983; 66346962405638446136; 51611846118116669369; 97356618263665919666; 8136906710450176000; 0; 0];
StrE false 321 [1; 97903110431089593781; 52334920102794891712; 30356513411374890248; 16374078433104458659; 21115883547242054269; 38981109221659882758; 58968674058568071585; 24306045098710861350; 88035991723709736708; 18494109816573853124; 77065383392366520026; 83684916788533809115; 34764814405201861230; 32095581039230976000; 0; 0];
StrE false 323 [350; 28850546302858099329; 63280858194695833077; 73102873813355573924; 98211882659489182680; 37511387861843605681; 99656332233799248270; 37455308366548670588; 2169982471822459105; 82370535096623397348; 73457437533572003084; 40572860448874044750; 12230271570484213416; 53372149720729437766; 80917843943882752000; 0; 0];
StrE false 325 [62351; 35397241908741680674; 63992758655858287836; 12311538777292158646; 81715113389074517106; 77027039408161811395; 38827137616266192126; 67044889245663364667; 86256879984397720836; 61955247198964728074; 75423880975816549024; 21969159899579965521; 76988339546189988143; 242650289839922492; 3376222011129856000; 0; 0];
StrE false 328 [11160892; 36106301664760840760; 54703799398633522666; 3765441135296397780; 27005296644338562111; 87840054060964239774; 50057633311648390674; 1035174973742275547; 39981517207192029754; 89989248614686325381; 874694671162275335; 32479622024813828396; 80912778768007877597; 43434401881346126074; 4343739992244224000; 0; 0];
StrE false 330 [2008960624; 99134299656951336898; 46683891754034079886; 77779404353351600448; 60953395980941180138; 11209730973563159410; 10373996096710321321; 86331495273609598531; 96673097294565355881; 98064750643538568581; 57445040809209560358; 46331964466489111425; 64300178241417967538; 18192338642302693327; 81873198603960320000; 0; 0];
StrE false 332 [363621873123; 43308237908191978622; 49784407480168459506; 78072187956639681198; 32564672550353604998; 28961306214931853228; 77693293504568159257; 26000644523337334285; 97830610316329414638; 49719866480480913264; 97552386466930424881; 86085568434529168041; 38332261696652124410; 92813294256787492335; 19048947316817920000; 0; 0];
StrE false 334 [66179180908464; 82099299290940109294; 60762161390659630234; 9138208108421978095; 26770404164356109688; 70957731117597287637; 40179417831404984821; 32117303247394840048; 5171077571953464206; 49015699447526214225; 54534336981337328498; 67573455084308583531; 76471628790686642788; 92019554735323605004; 66908411660861440000; 0; 0];
StrE false 337 [12110790106249062; 24171770242040000913; 19475534490712332838; 72292083841221991433; 98983962077168073033; 85264794520303637644; 52833463147112222301; 77466494273255728793; 46307195667483949787; 69872998897297203274; 79783667584731115257; 65942280428470786312; 94308068695655630372; 39578516564219715854; 44239333937643520000; 0; 0];
StrE false 339 [2228385379549827452; 47605724535360168027; 83498346291069242325; 1743426784846423854; 13049022198925438228; 88722191735869326593; 21357219068648903526; 53834946279054097997; 20524002817046760936; 56631797102685402562; 80194835590525207409; 33379598838624681581; 52684640000635988520; 82447047816427717217; 40037444526407680000; 0; 0];
StrE false 341 [4; 12251295216718078708; 7059039041631085149; 47194063847809830128; 22533955196588413014; 14069106801206072344; 13605471135825419744; 51085527700047152409; 59465061625008129482; 96940521153650773264; 76882463996799474118; 36044584247163370726; 75225785145566092582; 46658400117657876352; 52703846039127685219; 6927237385420800000; 0; 0];
StrE false 343 [766; 78740910309562639701; 12981261743381837801; 78095875692628403849; 91315666565444820630; 16853865024329456009; 30617631263528072479; 1908152208770348184; 60501462251512083832; 30936934579043827247; 138303404702186015; 4292669972386955175; 91996037075293220338; 78462421884365001570; 2915363277749450746; 88466153688268800000; 0; 0];
StrE false 346 [143389; 24550227888213624111; 27495946012403668933; 3928754521511519933; 76029647738181457841; 51672759549608273740; 25497046279749553576; 56824463040055110521; 13773441032759676641; 85206766281195695189; 25862736679308784813; 2729284836360617897; 3258933079832203352; 72472892376255293595; 45172932939147289667; 43170739706265600000; 0; 0];
StrE false 348 [26957178; 15442842984161332919; 69237850331889759411; 38605850044165747546; 93573774778114074205; 14478795326355463167; 93444700592916072394; 82999051530360777973; 89406914158819208668; 18872060864790695580; 62194495710051544849; 13105549235796164642; 12679419008454230312; 24903766735995195944; 92511392559690457477; 16099064777932800000; 0; 0];
StrE false 350 [5094906671; 18697324006491921821; 85953712727164528751; 96505658347326286370; 85443433063560024772; 36492316681182538739; 61048412061137682622; 86820739238187037065; 97906776016830438287; 66819503445441464737; 54759689199741976485; 76948805565475117361; 96410192597849529015; 6811913103092033590; 84653193781496463183; 42723243029299200000; 0; 0];
StrE false 352 [968032267525; 52491561233465146153; 31205418161260462873; 36075085991994410462; 34252282076404706749; 33540169424682360525; 99198291616159698344; 95940455255537042536; 2287443197783274656; 95705654633878300134; 4340947950975532296; 20273057440272298773; 17936593591410512862; 94263489587486382260; 84106818484328004851; 17416175566848000000; 0; 0];
StrE false 355 [184894163097375; 25888195591842915282; 60234868800748408811; 90341424470932398307; 42185876593298989123; 6172360114330860464; 46873698686502383887; 24626953807575124380; 36901650776605459478; 79780035070755325602; 29121058636326668574; 72153971092009065677; 25889375959407956822; 4326511209899011820; 64402330506648926574; 26489533267968000000; 0; 0];
StrE false 357 [35499679314696049; 70533553633839734259; 65094809743694491885; 45553498419020475024; 99688305913405911627; 85093141951525209177; 99750147808457706351; 28375131054423881030; 85116949108248219929; 17766733585022515639; 91243258174720366346; 53562449665740610033; 70760184206327709832; 30690152300610269563; 65247457276593902258; 85990387449856000000; 0; 0];
StrE false 359 [6851438107736337593; 12975851331068712112; 63298280533036933892; 91825194870951679824; 39843041287340944175; 22976396644365371353; 51778527032337325797; 76400293503809038954; 27571177891906446331; 28979581909345518503; 9948827721030704881; 37552785487937736505; 56715551821247997635; 23199394017782025784; 92759254382623135959; 96144777822208000000; 0; 0];
StrE false 362 [13; 29178992900849493067; 17315158227330149850; 79866423409165175226; 14087804964625885933; 29550009744143169994; 57420949006882042582; 45034244273441204766; 21656939738953557129; 48808511029850588270; 22038890413030589601; 30072577879956746986; 85240384659920882080; 2817053322111541235; 682439449713002275; 95295350228888376232; 52086897508352000000; 0; 0];
StrE false 364 [2591; 89903615665651148098; 76455854329379220905; 73952564787209169097; 47121968102047756992; 62251900107918148941; 97085056341998303577; 81677633321034929412; 23103249095943640250; 17659650820864712692; 97583630540964972253; 64152686591565662436; 21875008684572005605; 49325397811750540826; 33075692694035443810; 82593294633233365341; 56945014128640000000; 0; 0];
StrE false 366 [508012; 21108670467625027357; 85347448558327297524; 94702698292997143104; 35905748001360370554; 1372421151957192626; 28671043031667501252; 8816130922846164797; 28236822804953489034; 61291560889483687823; 26391586029134561713; 73926571946869837498; 87501702176113098676; 67777971103106001960; 82835768030946986921; 88285748113739606947; 61222769213440000000; 0; 0];
StrE false 369 [100078405; 58408082122130389497; 13447365990477612414; 56431563720437191558; 73432356267992999140; 70366966935566947378; 48195477238497746661; 36777791800694465064; 62654092575837339818; 74437495228286501182; 99142447739508657606; 63534673533357987278; 37835328694280439305; 52260307311882386283; 18646302096556423610; 92292378406702568679; 60885535047680000000; 0; 0];
StrE false 371 [19815524305; 64800260181817120432; 62578466114567258083; 73449616646563928629; 39606541062613829859; 32659453242255580939; 42704493222553838950; 82002776537504082796; 5510330015793284111; 38624055200727234232; 30204652422714206113; 79865359604881481118; 91395081467526982493; 47540847752712484070; 91967815118171874962; 73890924527108598562; 55335939440640000000; 0; 0];
StrE false 373 [3943289336823; 95251776181606966092; 53114756798884358663; 16473712666221797249; 81701671460152142005; 99231195208860606945; 98194151288213951213; 18552530963312476414; 96555673142863538165; 86186984944719612228; 10725832120127016645; 93206561371414742663; 87621212037869516201; 60628702789784330113; 1595208516203117585; 4293980894611113948; 11851948687360000000; 0; 0];
StrE false 375 [788657867364790; 50355236321393218506; 22951359776871732632; 94742533244359449963; 40334292030428401198; 46239041772121389196; 38830257642790242637; 10506192662495282993; 11134628572707633172; 37396988943922445621; 45166424025403329186; 41312274282948532775; 24242407573903240321; 25740557956866022603; 19041703240623517008; 58796178922222789623; 70389737472000000000; 0; 0];
StrE false 378 [158520231340322891; 21402500600036919752; 13223315151218259222; 43249182116249442644; 7192698116108640890; 94047396196399228474; 4881786200838770058; 11744725161551881615; 38060343114234267647; 16794777728411569911; 78451229106069166469; 3767130872655087823; 72723922354551304572; 73852149330070543241; 27382351365326918726; 18031963366780714364; 48337231872000000000; 0; 0];
StrE false 380 [32021086730745224025; 23305121207457789930; 71109660546088362931; 36334787482387414102; 52925019453945459969; 97574031672644151757; 86120812569431551739; 72434482633480086306; 88189309075322064727; 92545101139137122180; 47148279425971626745; 60960436276327740392; 90232315619363523693; 18134164674249734737; 31234975796037582688; 42456600089704301625; 64120838144000000000; 0; 0];
StrE false 382 [65; 280606341280477122; 30939605113931355934; 35261090855937675066; 75961858924645062813; 43778949150928373905; 7528429546762806845; 82524951594605003164; 4199974596457520297; 2429742290379139768; 86655531244835802635; 71100723472240229358; 74968564094531299759; 17160070730795309715; 81235428872696151674; 40700086595629285750; 18689818209973230005; 16530143232000000000; 0; 0];
StrE false 385 [13260; 57243693621217332951; 11679443241996610607; 93262534611285713618; 96219220627592813941; 30905626789388276635; 35799627539612596548; 35090125299420645464; 56794817677334140592; 95667427237344512848; 77728373946503737685; 4547588337006789184; 93587075284385150871; 654429082243182025; 72027490030014941579; 2817665508374293038; 12722914834538921053; 72149219328000000000; 0; 0];
StrE false 387 [2718417; 34957192349553254978; 94285864609305174626; 18819595313571291887; 24940228656526857968; 35653491824596710248; 38923645620582292411; 93475686381232320236; 42937623853498821556; 11822583655625133999; 34316659033266225434; 32255609086391782911; 85350433298955928556; 34157961859852315272; 65635456153063023700; 77621429216730072816; 8197541080478816012; 90589962240000000000; 0; 0];
StrE false 389 [559993974; 1181624007970525662; 22888109516865972994; 76836634595686128773; 37687103244532741481; 44619315866922311168; 18270997839952236858; 55991394533857968704; 45150513820757240560; 35452233058777603864; 69231760852842439470; 44655471796707279841; 82189259584921282606; 36540143129576946167; 20903967530982882359; 90014418646395000112; 88693462578636098658; 61532221440000000000; 0; 0];
StrE false 392 [115918752620; 44596169649898812081; 37838669991256409917; 5183361307028656089; 1230371618277486659; 36198384452918411813; 82096552870113029721; 90218668508599521821; 46156360896748795993; 38612243166963999991; 30974496538384970382; 43682661918406927257; 13176734078705499517; 63809627822427856612; 27121278913456648499; 32984659803765023367; 59546753777672422333; 37169838080000000000; 0; 0];
StrE false 394 [24111100545052; 76003287178952912926; 70443358181333262746; 78139151861960466514; 55917296601717225147; 29263966207029657274; 76082996983510182155; 65483049788700538864; 523066523749566624; 31346578728511998192; 42695279984073839546; 85993679028640869483; 40760688370743899668; 72402587064994175352; 41226013998982887860; 60809239183124860459; 85724785755863845341; 31326320640000000000; 0; 0];
StrE false 396 [5039220013916026; 84687020401158801681; 22661859898651914077; 31082739149737501542; 86714989758900055784; 16168937269198370425; 1346369553628070531; 85957405838412622577; 9320903463659424481; 51434954259007622217; 23313516671432465293; 72678916985941722032; 18983869485475030763; 32140696583782648654; 16236925787423562867; 9130989273095836110; 16480222975543676334; 47201013760000000000; 0; 0];
StrE false 399 [1058236202922365637; 84274284243348353057; 58990578716901956235; 27375221444875324002; 10147849369011714673; 95476826531657789252; 82737606261894811690; 51055226066650741189; 57389727368479141118; 1340394391600665618; 95838501000817711682; 62572567047761626759; 86612591949756460297; 49546282594356217374; 9754415358948202089; 17507747350125583134; 60846824864172030239; 12212889600000000000; 0; 0];
StrE false 401 [2; 23287838816619149584; 81873975346502495151; 47012109266312765642; 76171724868693364443; 41196216861471796204; 45610398179793532346; 57634921259805266697; 72652700063306391000; 9232474749098775900; 82823216627740445600; 21923711172537165034; 2811647077703246331; 75256901398613122771; 54265627409161865934; 58181640738070640815; 94134690876498041402; 38680046340298380454; 76919705600000000000; 0; 0];
StrE false 403 [473; 37021829123259711981; 57282773458528972111; 66567164458306316265; 48405672162993262003; 33597974632020795344; 69404414116228857474; 18603307078716539918; 2372413420954892019; 57284646808940490975; 58521925080974467246; 47826768577878987213; 96069180473088222331; 54463096505982027567; 4313010742315578131; 34507836470975852979; 56554465817584777306; 169824143256656411; 6977587200000000000; 0; 0];
StrE false 406 [100827; 85649603254318652075; 1230746666671059784; 78806029619245364548; 10408170717564806710; 56368596620429408419; 83140206756746642001; 62504407766623002539; 5324058663392000169; 1629770304324577799; 65170042247561523499; 87101707088224276573; 62735440767791356619; 639555774171871780; 18671288113218141976; 50169168317856684647; 46101219145557566178; 36172542513667815557; 86226073600000000000; 0; 0];
StrE false 408 [21577161; 29015096424191544052; 63379786667606793944; 64490338518508013294; 27348533558868636060; 62879676771893401843; 92004245943781388347; 75943262057322543357; 39348553965888036169; 48770845125459649125; 46389040978166028972; 39765316879995186756; 25384324307350316467; 36864935672780560959; 95655656228682382971; 36202020021330514556; 65660897149319162169; 40924097924912529382; 52379750400000000000; 0; 0];
StrE false 410 [4639089677; 38245731201181971316; 26654133535460698098; 65422781479222858268; 79934715156756753035; 19130505957081396442; 80912877912998494768; 27801342324346821839; 59939102665927776439; 85731701973824561974; 73643810305696229065; 49543129198965152594; 57629726080318040484; 25961169647820606390; 65966089166712338842; 83434304586060629681; 17092887103619866422; 98681053856193817242; 61646336000000000000; 0; 0];
StrE false 413 [1002043370314; 61077939455305804313; 57292843659510789309; 31320799512137386060; 65898473859458655601; 32189286729581631646; 77181629207674869948; 5089942058913517353; 46846175840399711009; 18047626346105386543; 7063026030385478147; 1315906976472960428; 48020833348696744600; 7612643929250980382; 48675260009865190052; 21809790589096011132; 92063614381891147365; 15107632937864524405; 15608576000000000000; 0; 0];
StrE false 415 [217443411358270; 53912861801359536045; 32547074113841280120; 96613494133812775162; 99968827502528265486; 85075220319214067349; 48413538065446778727; 4517426784233265702; 65620157366737288992; 16334917104868879846; 32676648593648757901; 85551813894632412980; 20520836667193578216; 51943732647462742999; 62531422140746241331; 32724557833834415843; 77804320870378978237; 78356347516601795918; 87060992000000000000; 0; 0];
StrE false 417 [47402663676102977; 53003872696378857880; 95262156817399066370; 61741721171184985533; 93204395551161876133; 46398029588666682187; 54151298267397762495; 84799038962851923179; 5194305948729000291; 61011928861415806499; 23509393415429222604; 50295429029866029684; 73542393448200051201; 23733717146877973918; 31850026682680610229; 33953607775902653943; 61341949742617255836; 81683758619191510313; 79296256000000000000; 0; 0];
StrE false 420 [10381183345066552079; 7848120506969875928; 62412343010395535165; 21436936489511831931; 11762625704450873228; 61168479918003399071; 59134320560109986590; 70989532864571176212; 37553002771651063862; 61612420650061623332; 48557157978999750386; 14698957540660500957; 5784165155811213070; 97684055166276288111; 75155843507053640225; 35840102922681213651; 33886993633179028262; 88743137602940758720; 65880064000000000000; 0; 0];
SciE false 419 [22838603359146414573; 97265865115333727042; 97307154622870177363; 47161260276926030248; 45877776549791921102; 94570655819607477957; 50095505232241970499; 56176972302056587667; 22616606097632340497; 75547325430135571331; 46825747553799450849; 52337706589453102105; 52725163342784668756; 14904921365807833845; 85342855715518008495; 78848226429898670032; 94551385992993862178; 35234902726469669185; 44936140800000000000; 0; 0] 421;
SciE false 419 [50473313423713576208; 47957561904887536764; 97048811716543091973; 27226385212006526849; 9389886175040145637; 51001149361332526286; 7711066563254754804; 3151108787545058744; 56982699475767472500; 3959589200599612642; 54484902093896786377; 44666331562691355653; 21522610987554117951; 8939876218435312799; 33607711131294798775; 69254580410076060772; 80958563044516435414; 15869135025497968899; 84308871168000000000; 0; 0] 423;
SciE false 419 [11205075580064413918; 28246578742885033161; 82344836201072566418; 6644257517065448960; 49884554730858912331; 52722255158215820835; 50911856777042555566; 49499546150835003041; 29450159283620378895; 879028802533114006; 64495648264845086575; 79315925606917480955; 1378019639237014185; 14184652520492639441; 45260911871147445328; 20374516851036885491; 56372800995882648661; 94322947975660549095; 76516569399296000000; 0; 0] 426;
SciE false 419 [24987318543543643037; 76989870596633623950; 86628984728391823112; 28816694263055951181; 91242557049815374499; 30570629002821280463; 18533440612804898913; 28383987916362056782; 8673855202473444935; 86960234229648844234; 81825295630604543064; 1874514103425982529; 68072983795498541632; 86631775120698585954; 43931833472658803081; 89435172577812254646; 18711346220818306516; 13340173985723024483; 55631949760430080000; 0; 0] 428;
SciE false 419 [55971593537537760404; 60457310136459317649; 94048925791597683771; 52549395149245330647; 48383327791586438878; 44478208966319668237; 53514906972682973565; 75580132932651007191; 87429435653540516656; 34790924674413411085; 99288662212554176463; 40198911591674200866; 48483483701916733257; 62055176270364832537; 94407306978755718903; 44334786574299450407; 45913415534633006596; 13881989728019574843; 16615567463363379200; 0; 0] 430;
SciE false 419 [12593608545945996091; 3602894780703346471; 23661008303109478848; 59323613908580199395; 68386248753106948747; 65007597017421925353; 44540854068853669052; 29505529909846476618; 17171623022046616247; 67827958051743017494; 34839948997824689704; 26544755108126695194; 95908783832931264982; 96462414660832087321; 3741644070220036753; 27475326979217376341; 67830518495292426484; 13123447688804404339; 71238502679256760320; 0; 0] 433;
SciE false 419 [28461555313837951165; 74142542204389563024; 99473878765027422197; 82071367433391250634; 24552922182021704169; 68917169259373551298; 78662330195609292058; 18682497596253037157; 6807868029825352719; 75291185196939219537; 22738284735083798731; 63991146544366331140; 60753851462424658861; 50005057133480517345; 54456115598697283062; 40094238973031270532; 19296971799360883854; 13658991776697953807; 74999016055120278323; 20000000000000000000; 0] 435;
SciE false 419 [64607730562412149146; 23303570803964308066; 73805704796612248389; 5302004073798138939; 73735133353189268465; 19441974218777961448; 24563489544033092972; 8409269543494394346; 54453860427703550673; 83910990397052028349; 50615906348640223120; 82259902655711571689; 17911242819703975615; 60511479693000774374; 38615382409042832551; 65013922468780984108; 7804125984549206348; 89005911333104355143; 59247766445123031793; 66400000000000000000; 0] 437;
SciE false 419 [14730562568229970005; 34113214143303862239; 21627700693627592632; 70408856928825975678; 26011610404527153210; 6432770121881375210; 20000475616039545197; 63517313455916721911; 1215480177516409553; 63531705810527862463; 68740426647489970871; 54755257805502238345; 13283763362892506440; 35796617370004176557; 36004307189261765821; 77623174322882064376; 64179340724477219047; 54693347783947792972; 73908490749488051248; 95539200000000000000; 0] 440;
SciE false 419 [33732988281246631312; 23119260388165844527; 80527434588407187128; 89236282367011484303; 21566587826367180851; 4731043579108349231; 35801089160730558502; 58454647814049293176; 21783449606512577877; 82487606306108805041; 84415577022752033295; 84389540374600125810; 35419818101023839748; 41974253777309564316; 35449863463409443731; 86757069199399927422; 50970690259052831618; 88247766425240445907; 57250443816327637360; 10784768000000000000; 0] 442;
SciE false 419 [77585873046867252018; 13174298892781442413; 95213099553336530396; 45243449444126413897; 39603152000644515957; 40881400231949203232; 12342505069680284555; 94445689972313374305; 30101934094978929118; 99721494504050251596; 24155827152329676580; 44095942861580289363; 81465581632354831421; 36540783687811997927; 61534685965841720583; 29541259158619833071; 77232587595821512723; 42969862778053025587; 41676020777553565928; 24804966400000000000; 0] 444;
SciE false 419 [17922336673826335216; 18843263044232513197; 62294225996820738521; 58051236821593201610; 29848328112148883186; 16143603453580265946; 62051118671096145732; 42316954383604389464; 52453546775940132626; 48835665230435608118; 73179996072188155290; 8186162801025046843; 4118549357073966058; 33540921031884571521; 27914512458109437454; 74124030865641181439; 57940727734634769439; 11226038301730248910; 69327160799614873729; 42529947238400000000; 0] 447;
SciE false 419 [41579821083277097701; 55716370262619430618; 48522604312624113370; 6678869426096227735; 89248121220185408991; 89453160012306216996; 15958595316943058099; 22175334169962183557; 69692228520181107693; 45298743334610610835; 45777590887476520272; 98991897698378108675; 85555034508411601255; 33814936793972205929; 36761668902813894894; 99967751608287540939; 82422488344352665098; 74044408860014177472; 80839013055106507052; 26669477593088000000; 0] 449;
SciE false 419 [96880983124035637644; 62819142711903273341; 7057668048414184152; 25561765762804210624; 62948122443032002951; 11425862828673485601; 5183527088477325371; 18668528616011887689; 43382892452021980925; 74546071969642723246; 61661786767820292236; 6651121637220993214; 74343230404599030924; 93788802729955239815; 42654688543556375105; 34924861247309970389; 79044397842341709680; 6523472643833033511; 64354900418398161431; 78139882791895040000; 0] 451;
SciE false 419 [22670150051024339208; 84299679394585365961; 81051494323328919091; 62781453188496185286; 16329860651669488690; 56073651901909595630; 64612945338703694136; 85768435696146781719; 32751596833773143536; 62443780840896397239; 70828858103669948383; 23956362463109712412; 24996315914676173236; 43546579838809526116; 80981197119192191774; 65172417531870533071; 21096389095107960065; 13526492598656929841; 72459046697905169775; 3684732573303439360; 0] 454;
SciE false 419 [53274852619907197140; 78104246577275610010; 25471011659822959865; 32536414992966035422; 48375172531423298422; 81773081969487549732; 1840421545953681221; 61555823885944937040; 41966252559366887311; 6742884976106533513; 31447816543624378700; 61297451788307824168; 78741342399489007105; 62334462621202386374; 50305813230101650670; 43155181199895752717; 34576514373503706153; 6787257606843785128; 5278759740077148971; 33659121547263082496; 0] 456;
SciE false 419 [12572865218298098525; 22432602192237043962; 42011158751718218528; 21678593938339984359; 70616540717415898427; 78498447344799061736; 75634339484845068768; 30127174437083005141; 53904035604010585405; 41191320854361141909; 14221684704295353373; 34466198622040646503; 83382956806279405676; 92710933178603763184; 38272171922303989558; 22184622763175397641; 29360057392146874652; 12401792795215133290; 22045787298658207157; 23543552685154087469; 5600000000000000000] 459;
SciE false 419 [29797690567366493504; 78165267195601794190; 93566446241572177911; 87378267633865762932; 50361201500275679273; 85041320207173776316; 11253384579082812980; 87401403415886722185; 44752564381505087410; 82623430424835906324; 66705392749179987494; 82684890734236332214; 8617607630882191454; 31724911633290918746; 98705047455860455252; 98577555948725692409; 86583336019388092925; 53392248924659865897; 82248515897819950962; 64798219863815187301; 66272000000000000000] 461;
SciE false 419 [70918503550332254541; 38033335925532270174; 42688142054941783430; 25960276968600515779; 35859659570656116671; 76398342093073587632; 34783055298217094894; 48015340129810398801; 36511103227982108037; 76643764411109457052; 70758834743048370237; 68790039947482470669; 52509906161499615661; 27505289687232386617; 82918012944947883502; 10614583157967147935; 48068339726143661162; 77073552440690480836; 81751467836811483291; 10219763275880145777; 95727360000000000000] 463;
SciE false 419 [16949522348529408835; 38989967286202212571; 68802465951131086239; 83204506195495523271; 26670458637386811884; 55159203760244587444; 13113150216273885679; 78075666291024685313; 52626153671487723821; 2617859694255160235; 59711361503588560486; 80740819547448310490; 1649867572598408143; 4473764235248540401; 66117405093842544157; 336885374754148356; 57988333194548335017; 90220579033325024919; 99938600812997944506; 57342523422935354840; 93178839040000000000] 466;
SciE false 419 [40678853636470581204; 93575921486885310172; 5125918282714606975; 59690814869189255851; 4009100729728348522; 92382089024587009865; 91471560519057325631; 47381599098459244752; 46302768811570537170; 46282863266212384565; 43307267608612545168; 33777966913875945176; 3959682174236179543; 30737034164596496963; 98681772225222105976; 80808524899409956055; 79171999666916004042; 96529389679980059807; 99852641951195066815; 77622056215044851618; 23629213696000000000] 468;
SciE false 419 [98036037263894100703; 89517970783393597514; 64353463061342202811; 18854863834746106601; 661932758645319940; 24640834549254693776; 85446460850928154771; 85189653827286779853; 43589672835884994580; 81541700471571846802; 69370514936756233855; 69404900262441027874; 25542834039909192699; 37076252336677557683; 20823071062785275404; 10748545007577994094; 45804519197267569743; 54635829128751944137; 27644867102380111026; 2069155478258092399; 94946405007360000000] 470;
SciE false 419 [23724721017862372370; 34263348929581250598; 54373538060844813080; 30762877048008557797; 44360187727592167425; 53963081960919635893; 99878043525924613454; 78815896226203400724; 53148700826284168688; 55733091514120386926; 25187664614695008593; 7795985863510728745; 56981365837658024633; 24772453065475968959; 33639183197194036647; 79401147891833874570; 85884693645738751877; 93821870649157970481; 22090057838775986868; 29700735625738458360; 78777030011781120000] 473;
SciE false 419 [57651072073405564859; 93259937898882438954; 46127697487852895785; 14753791226660795447; 78795256178048966844; 6130289165034715222; 41703645767996810695; 13522627829674263760; 61151343007870529913; 19431412379312540230; 79206025013708870881; 17944245648331070851; 73464718985508999858; 79197060949106604571; 18743215169181509054; 13944789377156315207; 18699805559145167063; 38987145677453868269; 36678840548225648089; 96172787570544453816; 71428182928628121600] 475;
SciE false 419 [14066861585910957825; 82355424847327315104; 88855158187036106571; 57599925059305234089; 26026042507443947909; 95095790556268470514; 26975689567391221809; 61299521190440520357; 58920927693920409298; 81941264620552259816; 31326270103344964495; 778395938192781287; 82325391432464195965; 54524082871582011515; 36973344501280288209; 21002528608026140910; 55362752556431420763; 46712863545298743857; 72549637093767058133; 95066160167212846731; 27828476634585261670] 478;
SciE false 419 [34463810885481846673; 26770790875951922006; 97695137558238461100; 36119816395297823518; 68763804143237672379; 37984686862857752759; 96090439440108493433; 55183826916579274876; 9356272850105002782; 10756098320353036549; 96749361753195163012; 76907070048572314155; 16697209009537280115; 58584003035375928212; 65584694028136706112; 56456195089664045230; 85638743763256980870; 49446515685981922451; 42746610879729292428; 17912092409671474491; 63179767754733891092] 480;
SciE false 419 [84780974778285342816; 23856145554841728137; 16330038393266614306; 88854748332432645855; 97158958192364674053; 27442329682630071789; 50382481022666893846; 53752214214785016195; 19016431211258306843; 98460001868068469912; 92003429912860101011; 41191392319487892821; 71075134163461709084; 34116647467024783403; 13338347309216297036; 90882239920573551267; 90671309657612172941; 41638428587515529230; 51156662764134059373; 32063747327791827249; 41422228676645372088] 482;
SciE false 419 [20940900770236479675; 61092467952045906849; 87933519483136853733; 80147122838110863526; 42498262673514074491; 15878255431609627732; 744472812598722780; 9476796911051899000; 21197058509180801790; 46419620461412912068; 49124847188476444949; 81874273902913509526; 96255558138375042143; 83226811924355121500; 57394571785376425368; 11647913260381667163; 17295813485430206716; 52984691861116335719; 93635695702741112665; 21019745589964581330; 60531290483131406906] 485;
SciE false 419 [51933433910186469595; 51509320521073848987; 70075128318179397259; 82764864638514941545; 53395691430314904738; 7378073470391876775; 37846292575244832494; 63502456339408709520; 52568705102768388440; 35120658744304021929; 85829621027421583475; 55048199279225503626; 86713784183170104516; 70402493572400701321; 42338538027733534912; 92886824885746534564; 66893617443866912656; 99402035815568512585; 44216525342797959409; 72128969063112161699; 90117600398165889126] 487;
SciE false 419 [12931425043636430929; 28325820809747388397; 93748706951226669917; 69708451294990220444; 83795527166148411279; 78037140294127577317; 6923726851235963291; 16412111628512768670; 61089607570589328721; 64745044027331701460; 53471575635827974285; 41207001620527150403; 8991732261609356024; 65930220899527774629; 3442295968905650193; 31928819396550887106; 60256510743522861251; 59151106918076559633; 77509914810356691893; 2060113296714928263; 27539282499143306392] 490;
SciE false 419 [32328562609091077323; 20814552024368470994; 84371767378066674794; 24271128237475551112; 9488817915371028199; 45092850735318943292; 67309317128089908227; 91030279071281921676; 52724018926473321804; 11862610068329253651; 33678939089569935713; 53017504051317876007; 72479330654023390061; 64825552248819436572; 58605739922264125483; 29822048491377217766; 50641276858807153128; 97877767295191399084; 43774787025891729732; 55150283241787320658; 18848206247858265981] 492;
SciE false 419 [81144692148818604081; 25244525581164862197; 5773136118947353733; 54920531876063633291; 35816932967581280780; 62183055345650547664; 60946385991505669652; 5486000468917623408; 8337287505448037728; 33775151271506426664; 85534137114820538640; 96073935168807868779; 38923119941598709054; 73712136144536785797; 19100407204882954963; 7853341713356816593; 93109604915605954353; 73673195910930411701; 93874715434988241628; 70427210936886174852; 5308997682124247612] 494;
SciE false 419 [20448462421502288228; 47561620446453545273; 65854830301974733140; 85439974032768035589; 42225867107830482756; 71670129947103938011; 48158489269859428752; 31782472118167241098; 83700996451372905507; 54111338120419619519; 54354602552934775737; 52210631662539582932; 40608626225282874681; 79375458308423270020; 89213302615630504650; 69579042111765917781; 67063620438732700497; 14165645369554463748; 88856428289617036890; 43347657156095316062; 71737867415895310398] 497;
SciE false 419 [51734609926400789218; 4330899729527469542; 35612720663996074846; 36163134302903130041; 23831443782811121374; 49325428766172963169; 4840977852744354743; 36409654458963119980; 5763521021973450934; 7901685444661637384; 44517144458924982615; 93092898106225144818; 98739824349965672944; 93819909520310873152; 85709655617545176766; 26034976542767771987; 62670959709993732257; 76839082784972793284; 68806763572731103332; 79669572604921149638; 67496804562215135308] 499;
SciE false 419 [13140590921305800461; 38300048531299977263; 75845631048655003010; 97585436112937395030; 47453186720834024829; 12128658906607932644; 93829608374597066104; 81448052232576632474; 93463934339581256537; 25607028102944055895; 64907354692566945584; 44645596118981186784; 2279915384891280928; 1430257018158961780; 82570252526856474898; 63012884041863014084; 85718423766338407993; 47317127027383089494; 31076917947473700246; 53036071441649972008; 22344188358802644368] 502;
SciE false 419 [33508506849329791176; 52665123754814942022; 58406359174070257677; 98842862087990357327; 71005626138126763314; 25928080211850228244; 59265501355222518567; 27692533193070412811; 8333032565932204170; 297921662507342533; 90513754466045711240; 33846270103402026299; 25813784231472766366; 43647155396305352541; 10554143943484010991; 50682854306750685916; 38581980604162940383; 35658673919826878210; 49246140766057935628; 65241982176207428620; 96977680314946743139] 504;
SciE false 419 [85781777534284265411; 90822716812326251577; 81520279485619859655; 65037726945255314758; 93774402913604514084; 50375885342336584306; 15719683469369647532; 22892884974260256796; 37332563368786442675; 20762679456018796886; 79715211433077020775; 26646451464709187326; 10083287632570281898; 7736717814541702505; 23018608495319068138; 25748107025281755945; 94769870346657127381; 39286205234756808218; 86070120361108315209; 35019474371091017269; 68262861606263662435] 506;
SciE false 419 [22045916826311056210; 86041438220767846655; 49850711827804303931; 50214695824930615893; 4700021548796360119; 71746602532980502166; 68239958651627999415; 78283471438384885996; 66794468785778115767; 52836008620196830799; 90686809338300794339; 24348138026430261142; 80791404921570562447; 80588336478337217543; 84415782383297000511; 53217263505497411278; 10855856679090881737; 1796554745332499712; 24720020932804837008; 80300004913370391438; 30843555432809761246] 509;
SciE false 419 [56878465411882525024; 1986910609581044371; 18614836515735104143; 27553915228320989004; 6126055595894609108; 87106234535089695590; 4059093321200238492; 71971356311033005871; 40329729467307538680; 22316902240107823463; 75971968092816049395; 24818196108190073748; 44441824697652051115; 33917908114110021263; 11792718548906261319; 75300539844183321097; 52008110232054474881; 50635111242957849257; 59777654006636479482; 71174012676495609910; 83576373016649184014] 511;
SciE false 419 [14731522541677573981; 22114609847881490492; 13721242657575391973; 10836464044135136152; 5186648399336703759; 19760514744588231157; 82051305170190861769; 61440581284557548520; 69345399932032652518; 17780077680187926277; 11376739736039356793; 36927912792021229100; 84710432596691881238; 87284738201554495507; 14754314104166721681; 81602839819643480164; 25770100550102108994; 31014493811926082957; 71782412387718848186; 2234069283212362966; 90646280611312138660] 514;
SciE false 419 [38301958608361692351; 17497985604491875279; 55675230909696019130; 8174806514751353995; 33485285838275429773; 91377338335929401010; 33333393442496240600; 99745511339849626153; 80298039823284896547; 26228201968488608320; 49579523313702327662; 76012573259255195662; 20247124751398891221; 6940319324041688318; 58361216670833476372; 72167383531073048427; 7002261430265483385; 20637683911007815690; 6634272208069005283; 65808580136352143713; 95680329589411560515] 516;
SciE false 419 [99968111967824017036; 56669742427723794479; 64312352674306609929; 51336245003501033927; 82396596037898871709; 91494853056775736636; 97000156884915187968; 60335784597007524261; 42577883938773579988; 35455607137755267716; 49402555848763075199; 80392816206656060678; 34844995601151106086; 99114233435748806511; 50322775510875373332; 80356871016100656394; 65275902332992911635; 38864355007730398951; 7315450463060103790; 34760394155879095093; 42725660228364172945] 518;
SciE false 419 [26191645335569892463; 58047472516063634153; 66649836400668331801; 53250096190917270889; 8987908161929504387; 99771651500875242998; 88614041103847779247; 77407975564415971356; 49355405591958677956; 94889369070091880141; 72143469632375925702; 34862917846143887897; 72729388847501589794; 79167929160166187306; 1384567183849347813; 19453500206218371975; 39902286411244142848; 47182461012025364525; 18116648021321747193; 7107223268840322914; 47794122979831413311] 521;
SciE false 419 [68884027232548817179; 21664852717247357824; 14289069733757712638; 3047752982112422438; 30638198465874596540; 43399443447301889087; 7054928103119659421; 64582975734414004667; 57804716706851323026; 77559040654341644772; 72737325133148684597; 17689473935358425171; 2278292668929181160; 30211653691237072614; 81641411693523784748; 70162705542354318295; 29943013261572095691; 48089872461626708701; 22646784296076195117; 77691997197050049265; 7698543436956617009] 523;
SciE false 419 [18185383189392887735; 31319521117353302465; 57372314409712036136; 44004606787277679523; 71288484394990893486; 67457453070087698718; 98662501019223590087; 31449905593885297232; 24060445210608749279; 6875586732746194220; 2653835151252733; 65470021118934624245; 15001469264597303826; 31975876574486587170; 31153332687090279173; 65722954263181540029; 95904955501055033262; 55095726329869451097; 12378751054164115511; 9310687260021213005; 98032415467356546890] 526;
SciE false 419 [48191265451891152498; 57996730960986251533; 77036633185736895761; 56612207986285850737; 83914483646725867739; 68762250635732401605; 31455627700942513731; 38342249823796037665; 43760179808113185589; 53220304841777414683; 7032663150819744; 18495555965176754249; 64753893551182855139; 74736072922389456001; 32556331620789239810; 19165828797431081079; 39148132077795838145; 76003674774154045407; 37803690293534906104; 39673321239056214465; 84785900988494849260] 528;
SciE false 419 [12818876610203046564; 62227130435622342907; 98291744427406014272; 57658847324352036296; 26521252650029080818; 75690758669104818827; 1367196968450708652; 54799038453129746019; 640207828958107366; 81556601087912792305; 67801870688398118051; 95319817886737016630; 40624535684614639467; 17279795397355595296; 35259984211129937789; 51098110460116667567; 11813403132693692946; 77216977489924976078; 36255781618080285023; 76953103449588953047; 91553049662939629903] 531;
SciE false 419 [34226400549242134327; 54146438263111655564; 31438957621174058107; 77949122356019936911; 2811744575577645786; 8094325646509866268; 12650415905763392102; 30313432669856421870; 74709354903318146669; 39756124904727155456; 16030994738022975198; 71503913757587834403; 18467510277921087377; 35137053710939439441; 26144157843716933897; 99431954928511502404; 20541786364292160167; 88169329898099686129; 22802936920274361013; 46464786210402504637; 93446642600048811841] 533;
SciE false 419 [91726753471968919997; 81112454545139236912; 36256406424746475728; 84903647914133430921; 55535475462548090706; 69692792732646441598; 57903114627445890834; 17239999555215210613; 60221071140892633073; 98546414744668776622; 50963065897901573532; 55630488870335396200; 53492927544828514171; 30167303945317697702; 58066343021161382846; 62477639208410826443; 27051987456302989249; 92293804126907158826; 33111870946335287516; 8525627043878712429; 66437002168130815734] 535;
SciE false 419 [24674496683959639479; 41119250272642454729; 42552973328256801971; 6039081288901892917; 89839042899425436400; 10147361245081892790; 1775937834782944634; 39237559880352891655; 5899468136900118296; 90208985566315900911; 45509064726535523280; 25764601506120221577; 94389597509558870312; 8015004761290460681; 99419846272692411985; 74206484947062512313; 23976984625745504108; 22927033310138025724; 28307093284564192341; 82693393674803373643; 57971553583227189433] 538;
SciE false 419 [66621141046691026594; 41021975736134627769; 44893027986293365321; 86305519480035110878; 32565415828448678280; 27397875361721110533; 4795032153913950512; 85941411676952807468; 65928563969630319401; 63564261029052932460; 92874474761645912856; 69564424066524598260; 44851913275808949842; 61640512855484243841; 38433584936269512361; 50357509357068783245; 74737858489512861092; 21902989937372669455; 56429151868323319322; 93272162921969108837; 66523194674713411468] 540;
SciE false 419 [18054329223653268207; 8516955424492484125; 52066010584285502002; 22488795779089515048; 2625227689509591813; 95424824223026420954; 45599453713710680588; 98490122564454210824; 666640835769816557; 84325914738873344696; 91168982660406042384; 16451958922028166128; 58154868497744225407; 34904578983836230081; 1515501517729037849; 96746885035765640259; 59753959650657985355; 99135710273027993422; 45792300156315619536; 51476756151853628495; 727785756847334508] 543;
SciE false 419 [49107775488336889523; 27166118754619556821; 41619548789256565446; 5169524519123480930; 63140619315466089733; 95555521886631864996; 12030514101293051202; 3893133375315453441; 29813263073293901037; 33366488089735497575; 59979632836304435284; 92749328267916611869; 74181242313864293107; 98940454836034545820; 36122164128222982951; 91151527297282541506; 10530770249789720168; 29649131942636142109; 8555056425178485139; 32016776733041869506; 41979577258624749861] 545;
SciE false 419 [13406422708315970839; 85316350420011139012; 24662136819467042366; 77211280193720710294; 6237389073122242497; 36986657475050499143; 94084330349653002978; 15662825411461118789; 47439020819009234983; 19209051248497790838; 13874439764311110832; 78520566617141235040; 43951479151684952018; 48110744170237431008; 95861350807004874345; 87184366952158133831; 16674900278192593605; 94494213020339666795; 78035530404073726443; 3440580048120430375; 25260424591604556712] 548;
SciE false 419 [36733598220785760101; 19766800150830520893; 55574254885339696084; 95558907730794746205; 73090446060354944442; 79343441481638367654; 39791065158049228160; 14916141627403465483; 15982917044085303853; 94632800420883946896; 50015964954212443681; 83146352530966984010; 80427052875616768530; 63823439026450560964; 54660101211193355707; 68885165448913286697; 39689226762247706480; 28914143675730687020; 43817353307162010453; 91427189331849979228; 19213563380996485391] 550;
SciE false 419 [10101739510716084027; 82935870041478393245; 72782920093468416423; 36278699625968555206; 57599872666597609721; 76819446407450551104; 95942542918463537744; 4101938947535953007; 86895302187123458559; 83524020115743085396; 53754390362408422012; 50365246946015920602; 97117439540794611345; 92551445732273904265; 25031527833078172819; 61443420498451153841; 78414537359618119282; 7951389510825938930; 62049772159469552874; 82642477066258744287; 75283729929774033483] 553;
SciE false 419 [27880801049576391916; 80903001314480365358; 20880859457972829328; 48129210967673212370; 14975648559809402832; 8021672084563521049; 68801418454959364173; 55321351495199230301; 71831034036460745625; 14526295519450915694; 44362117400247244754; 51008081571003940864; 20044133132593127314; 75441990221075975772; 9087016819295756982; 13583840575725184603; 32424123112546009218; 53945835049879591448; 51257371160135965934; 52093236702874134234; 19783094606176332412] 555;
SciE false 419 [77229818907326605609; 56101313641110612042; 23839980698584737239; 89317914380454798265; 31482546510672045844; 86220031674240953307; 63579929120237438760; 74240143641701867935; 75971964280996265381; 65237838588879036473; 60883065198684867969; 99292385951680916193; 83522248777282962661; 86974312912380452888; 69171036589449246840; 51627238394758761351; 20814821021752445535; 35429963088166468312; 37982918113576625638; 62298265666961351828; 72799172059108440781] 557;
SciE false 419 [21469889656236796359; 45796165192228750147; 74227514634206556952; 69030380197766433917; 75752147929966828744; 87169168805438985019; 52275220295426007975; 48638759932393119286; 14120206070116961776; 9936119127708372139; 66325492125234393295; 65803283294567294701; 88619185160084663619; 99978858989641765903; 5629548171866890621; 66352372273742935655; 63586520244047179858; 82849529738510278190; 84159251235574301927; 53718917855415255808; 38638169832432146537] 560;
SciE false 419 [59900992140900661842; 88771300886318212912; 20094765829436293898; 594760751768350630; 54348492724607452198; 19201980967174768204; 46847864624238562251; 60702140211376802808; 33395374935626323355; 31721772366306358269; 66048123029403957294; 88591160391842752218; 26247526596636211499; 79941016581100526869; 52706439399508624834; 44123118643742790479; 22406391480891631806; 13150187970443676152; 44804310947252302377; 82875780816608563705; 39800493832485688838] 562;
SciE false 419 [16772277799452185316; 855964248169099615; 41626534432242162291; 44166533010495138176; 55217577962890086615; 49376554670808935097; 25117402094786797430; 44996599259185504786; 33350704981975370539; 48882096262565780315; 50493474448233108042; 56805524909715970621; 11349307447058139219; 94383484642708147523; 46757803031862414953; 64354473220247981334; 18273789614649656905; 71682052631724229322; 68545207065230644665; 79205218628650397837; 51144138273095992875] 565;
SciE false 419 [47130100616460640737; 98405259537355169919; 31970561754600476038; 95107957759491338276; 11161394075721143389; 53748118624973107623; 27579899886350900779; 56440443918311268449; 59715480999350791215; 96358690497809842686; 56886663199535033599; 61623524996301877445; 32891553926233371208; 4217591846009894540; 94389426519533386019; 73836069748896827549; 5349348817165535905; 6426567895145084396; 74612031853298111510; 87566664346507617923; 40715028547399739978] 567;
SciE false 419 [13290688373841900688; 11150283189534157917; 24815698414797334242; 98420444088176557393; 86347513129353362435; 84956969452242416349; 76377531767950954019; 83716205184963777702; 78639765641816923122; 90173150720382375637; 61242039022268879475; 9177834048957129439; 58275418207197810680; 66789360900574790260; 54617818278508414857; 56621771669188905368; 83308516366440681125; 22812292146430913799; 88240592982630067446; 6693799345715148254; 40081638050366726674] 570;
SciE false 419 [37612648097972578947; 35555301426381666905; 81228426513876455907; 64529856769539657424; 63363462156070015693; 45428223549846038269; 83148414903301199876; 13916860673447490898; 88550536766341892437; 81190016538682123054; 44314970433020928914; 50973270358548676314; 1919433526369804226; 29013891348626656437; 34568425728178814046; 91239613823804602193; 79763101317027127584; 39558786774399486053; 66720878140843090872; 36943452148373869559; 95431035682537836487] 572;
SciE false 419 [10681992059824212421; 4897705605092393401; 25068873129940913477; 77126479322549262708; 59595223252323884456; 94101615488156274868; 63214149832537540764; 82352388431259087415; 28348352441641097452; 33857964696985722947; 46185451602977943811; 72076408781827824073; 18145119121489024400; 26639945143009970428; 20617432906802783189; 32312050325960507023; 3852720774035704233; 96834695443929454039; 24148729391999437807; 75291940410138178955; 2702414133840745562] 575;
SciE false 419 [30443677370499005399; 98958460974513321193; 56446288420331603411; 64810466069265398719; 49846386269123070702; 28189604141245383375; 60160327022731991179; 74704307029088399133; 55792804458677127739; 16495199386409310400; 26628537068487139863; 40417765028209298608; 56713589496243719540; 75923843657578415720; 38759683784387932089; 57089343428987445015; 65980254206001757066; 80978882015198944011; 83823878767198397752; 9582030168893810021; 82701880281446124853] 577;
SciE false 419 [87068917279627155443; 97021198387108098613; 59436384882148385757; 31357932958099040337; 76560664729691982208; 52622267843961796454; 22058535285013494774; 7654318103192821521; 97567420751816585334; 1176270245130627744; 76157616015873220009; 33594807980678594020; 50200865959257037886; 57142192860674268960; 30852695623349485776; 17275522206904092744; 78703527029165025211; 7599602563468979873; 85736293274187417570; 99404606283036296662; 42527377604935917078] 579;
SciE false 419 [24988779259252993612; 41945083937100024302; 10158242461176586712; 34899726758974424576; 93872910777421598893; 84702590871217035582; 36130799626798873000; 15996789295616339776; 80701849755771359990; 86137589560352490162; 74657235796555614142; 67941709890454756483; 88407648530306769873; 44599809351013515191; 60854723643901302417; 76158074873381474617; 75387912257370362235; 57881085935715597223; 79706316169691788842; 87529122003231417142; 11605357372616608201] 582;
SciE false 419 [71967684266648621603; 76801841738848069990; 5255738288188569731; 56511213065846342781; 58353983038974204814; 27943461709105062477; 20056702925180754240; 46070753171375058557; 20421327296621516773; 68076257933815171668; 71012839094080168730; 91672124484509698673; 58614027767283497235; 52447450930918923751; 83261604094435750963; 15335255635338646899; 13117187301226643238; 46697527494860920004; 53554190568712351867; 48083871369306481369; 29423429233135831620] 584;
SciE false 419 [20798660753061451643; 48895732262527092227; 12518908365286496652; 42231740576029593063; 87764301098263545191; 32675660433931363055; 91096387145377237975; 49314447666527391923; 3201763588723618347; 59374038542872584612; 25722710498189168763; 23493243976023302916; 66639454024744930701; 6657313319035568964; 27962603583291932028; 35131888878612868953; 84890867130054499895; 91695585446014805881; 31077161074357869689; 70196238825729573115; 72603371048376255338] 587;
SciE false 419 [60316116183878209766; 11797623561328567458; 66304834259330840292; 2472047670485819885; 24516473184964281054; 84759415258400952862; 14179522721593990128; 93011898232929436576; 79285114407298493208; 2184711774330495375; 54595860444748589413; 38130407530467578458; 33254416671760299033; 9306208625203149996; 41091550391546602882; 21882477747977319966; 16183514677158049698; 15917197793442937055; 80123767115637822100; 13569092594615762035; 60549776040291140481] 589;
SciE false 419 [17551989809508559041; 94033108456346613130; 47094706769465274524; 97919365872111373586; 60634293696824605786; 96064989840194677282; 88326241111983851127; 51866462385782466043; 84671968292523861523; 53435751126330174154; 28387395389421839519; 29395948591366065331; 37477035251482247018; 63008106709934116648; 95557641163940061438; 72567801024661400110; 15309402771052992462; 16431904557891894683; 23816016230650606231; 13948605945033186752; 36119984827724721880] 592;
SciE false 419 [51251810243764992402; 46576676692532110340; 97516543766838601612; 93924548346565210872; 89052137594727848897; 92509770333368457666; 1912624046992845292; 35450070166484800848; 3242147414169675648; 72032393288884108530; 50891194537111771396; 33836169886788910767; 61432942934328161294; 39983671593007620614; 95028312198704979401; 7897978992011288321; 64703456091474737989; 51981161309044332475; 5542767393499770194; 92729929359496905316; 89470355696956187889] 594;
SciE false 419 [15016780401423142773; 92246966270911908329; 90572347323683710272; 59119892665543606785; 75692276315255259727; 9205362707676958096; 14360398845768903670; 65986870558780046648; 47349949192351714965; 7505491233643043799; 43911119999373749019; 12713997776829150854; 91099852279758151259; 25915215776751232840; 18043295474220558964; 51614107844659307478; 24258112634802098230; 92930480263549989415; 19124030846295432667; 11369869302332593257; 85014814219208163052] 597;
SciE false 419 [44149334380184039755; 33206080836481010489; 92282701131630108201; 41812484436698203950; 12535292366850463597; 65063766360570256802; 66219572606560576791; 74001399442813337146; 51208850625514041997; 32066144226910548770; 35098692798158822116; 23379153463877703513; 43833565702488964702; 22190734383648624550; 13047288694208443355; 67745477063298363986; 3318851146318168798; 93215611974836968880; 66224650688108572041; 31427415748857824178; 7943553804471999372] 599;
SciE false 419 [13024053642154291727; 82295793846761898094; 52723396833830881919; 41834682908825970165; 28697911248220886761; 30693811076368225756; 78534773918935370153; 56330412835629934458; 22106610934526642389; 20959512546938611887; 25354114375456852524; 28896850271843922536; 46430901882234244587; 15546266643176344242; 28848950164791490789; 92484915733673017375; 87979061088163859795; 68498605532576905819; 79536271952992028752; 18771087645913058132; 53343348372319239815] 602;
SciE false 419 [38551198780776703514; 35595549786415218359; 80061254628139410481; 47830661410124871689; 24945817294733824813; 46853680786049948240; 8462930800048695654; 54738021993464605996; 33435568366198861472; 6040157138938291186; 27048178551352283471; 89534676804658010707; 93435469571413363977; 98016949263801978957; 17392892487782812738; 17755350571672131432; 60418020820965024995; 22755872376427641226; 59427364980856405106; 47562419431902652072; 29896311182064949851] 604;
SciE false 419 [11449706037890680943; 76371878286565319852; 86078192624557404912; 99905706438807086891; 70708907736535945969; 60015543193456834627; 30513490447614462609; 40057192532058987980; 91130363804761061857; 20193926670264672482; 32233309029751628191; 15291799010983429180; 25650334462709769101; 46011033931349187750; 28065689068871495383; 23873339119786623035; 48344152183826612423; 58258494095799009444; 29849927399314352316; 62326038571275087665; 47279204421073290106] 607;
SciE false 419 [34120123992914229212; 41588197293964653161; 52513014021181066640; 73719005187645118937; 28712545054877118989; 40846318716501367189; 36930201533891098576; 1370433745535784183; 11568484138187964334; 46177901477388723997; 32055260908659852009; 63569561052730618957; 16437996698875111922; 35112881115420579495; 83635753425237056242; 5142550576964136645; 74065573507803305022; 27610312405481048144; 952783649956769903; 53731594942399761243; 10892029174798404515] 609;
SciE false 419 [10201917073881354534; 51234870990895431295; 29601391192333138925; 58041982551105890562; 24885050971408258577; 83313049296233908789; 62142130258633438474; 22809759689915199470; 75158976757318201336; 407192541739228475; 19884523011689295750; 88107298754766455068; 19214961012963658464; 78298751453510753269; 25507090274145879816; 37337622622512276857; 7645606478833188201; 66055483409238833395; 5884882311337074201; 15765746887777528611; 68956716723264722950] 612;
SciE false 419 [30605751221644063603; 53704612972686293885; 88804173576999416776; 74125947653317671686; 74655152914224775733; 49939147888701726368; 86426390775900315422; 68429279069745598412; 25476930271954604008; 1221577625217685425; 59653569035067887252; 64321896264299365204; 57644883038890975394; 34896254360532259807; 76521270822437639449; 12012867867536830571; 22936819436499564604; 98166450227716500185; 17654646934011222603; 47297240663332585835; 6870150169794168850] 614;
SciE false 419 [92123311177148631446; 64650885047785744596; 52300562466768244497; 99119102436486191777; 10712010271816574957; 83316835144992196370; 28143436235459949422; 27972129999934251220; 88685560118583358064; 11676948651905233131; 4557242795554340630; 45608907755541089265; 77511097947061835936; 99037725625202102021; 37329025175537294741; 85158732281285860019; 40039826503863689460; 99481015185426665557; 38140487271373780036; 45364694396631083363; 55679152011080448240] 616;
SciE false 419 [27821239975498886696; 88724567284431294868; 14994769864964009838; 39333968935818829916; 68635027102088605637; 26561684213787643303; 82499317743108904725; 52847583259980143868; 70783039155812174135; 36326438492875380405; 57576287324257410870; 39773890142173408958; 26408351580012674452; 97109393138811034810; 45473365603012263012; 3917937148948329725; 85892027604166834217; 22043266585998852998; 32918427155954881571; 900137707782587175; 79415103907346295368] 619;
SciE false 419 [84298357125761626691; 56835438871826823450; 49434152690840949810; 33181925875531054647; 55964132119328475080; 91481903167776559210; 58972932761619981318; 35128177277739835922; 18472608642110887630; 15069108633412402628; 89456150592499954937; 30514887130785429143; 54017305287438403592; 50241461210597435475; 67784297777127156926; 47871349561313439069; 35252843640625507678; 17791097755576524584; 93742834282543291160; 15727417254581239142; 65627764839259274966] 621;
SciE false 419 [25626700566231534514; 23677973417035354328; 95027982418015648742; 34087305466161440612; 85813096164275856424; 59810498563004074000; 1927771559532474320; 77878965892432910120; 34415673027201709839; 56581009024557370399; 18394669780119986300; 94076525687758770459; 63621260807381274692; 12073404208021620384; 60606426524246655705; 64952890266639285477; 8316864466750154334; 16608493717695263473; 82097821621893160512; 68781134845392696699; 36750840511134819590] 624;
SciE false 419 [78161436727006180268; 42217818921957830703; 29835346374947728664; 13966281671792393869; 21729943301041362095; 2422020617162425700; 5879703256574046678; 37530845971920375867; 4967802732965215010; 67572077524899979717; 51103742829365958217; 86933403347664249901; 89044845462512887810; 96823882834465942173; 4849600898952299902; 23106315313249820705; 10366436623587970719; 20655905838970553595; 15398355946774139563; 69782461278447724933; 7090063558961199749] 626;
SciE false 419 [23917399638463891162; 13718652590119096195; 20929615990734004971; 22673682191568472523; 98049362650118656801; 7741138308851702264; 21799189196511658283; 58284438867407635015; 31720147636287355793; 26677055722619393793; 55837745305785983214; 66801621424385260469; 97847722711528943670; 15628108147346578304; 95283977875079403770; 8270532485854445135; 76172129606817919040; 7720707186724989400; 11711896919712886706; 49153433151205003829; 51969559449042127123] 629;
SciE false 419 [73426416890084145867; 76116263451665625319; 29253921091553395261; 66608204328115210648; 62011543335864276379; 30765294608174725951; 14923510833290790930; 59933227322941439497; 2380853243402182285; 32898561068441538946; 22421878088762968469; 3080977772862749642; 83392508724393857067; 37978292012353995396; 20521812076493769574; 15390534731573146566; 78848437892931011453; 3702571063245717458; 35955523543518562188; 92901039774199361756; 62546547508559330268] 631;
SciE false 419 [22615336402145916927; 27043809143113012598; 34210207696198445740; 59315326933059484879; 77499555347446197124; 82675710739317815592; 95396441336653563606; 62459434015465963365; 8333302798967872143; 88132756809079993995; 43705938451338994288; 46148941154041726889; 99284892687113307976; 75297313939805030582; 3120718119560081028; 83940284697324529142; 57085318871022751527; 53540391887479680977; 17474301251403717154; 19013520250453403421; 4064336632636273722] 634;
SciE false 419 [69881389482630883305; 26565370252219208928; 87709541781253197338; 43284360223153808278; 50473626023608749115; 71467946184492050182; 22775003730259511544; 46999651107789826798; 10749905648810724924; 59330218540057181445; 90051349814637492351; 34600228165988936090; 7790318403180121648; 16668700073997544498; 47643018989440650379; 11375479714732795050; 54393635311460302220; 8439810932312214219; 46995590866837486006; 44751777573901016571; 1558800194846085802] 636;
SciE false 419 [21663230739615573824; 63235264778187954767; 95189957952188491174; 91418151669177680566; 33646824067318712225; 87155063317192535556; 49060251156380448578; 78569891843414846307; 41332470751131324726; 62392367747417726248; 22915918442537622628; 91726070731456570187; 92414998704985837710; 93167297022939238794; 52769335886726601617; 52526398711567166465; 66862026946552693688; 22616341389016786408; 3568633168719620661; 99873051047909315137; 1483228060402286599] 639;
SciE false 419 [67372647600204434594; 60661673460164539328; 33040769231306207553; 98310451691142586561; 30641622849361195022; 46052246916468785580; 68577381096343195080; 2352363633020172016; 5543984036018419899; 80040263694469128631; 99268506356292006375; 93268079974829933284; 44410645972505955280; 99750293741341032650; 98112634607719731030; 50357099992973887708; 22940903803778877370; 38336821719842205728; 99098449154718020258; 81605188758997970076; 11612839267851111322] 641;
SciE false 419 [21020266051263783593; 51726442119571336270; 43908720000167536756; 84272860927636487007; 12760186329000692847; 768301037938261101; 17396142902059076864; 96733937453502293669; 929723019237747008; 73772562272674368133; 18171773983163105989; 29099640952146939184; 74656121543421858047; 67122091647298402187; 10611141997608556081; 51711415197807852964; 96757561986779009739; 55961088376590768187; 44518716136272022320; 75060818892807366663; 74823205851569546733] 644;
SciE false 419 [65793432740455642647; 70903763834258282526; 47434293600524390048; 91774054703502204332; 30939383209772168611; 13404782248746757246; 67449927283444910587; 34777224229462179183; 99910033050214148137; 34908119913470772256; 85877652567300521746; 48081876180219919648; 25673660430910415689; 21092146856043998845; 64212874452514780535; 14856729569138579780; 34851169018618300484; 82158206618729104426; 70343581506531429863; 94940363134487057657; 53196634315412681273] 646;
SciE false 419 [20659137880503071791; 38063781843957100713; 31294368190564658475; 36017053176899692160; 34514966327868460943; 89609101626106481775; 45579277167001701924; 42720048408051124263; 77571750377767242515; 12761149652829822488; 65365582906132363828; 39497709120589054769; 55261529375305870526; 41222934112797815637; 53162842578089641088; 3665013084709514051; 2943267071846146352; 23397676878280938789; 98487884593050868977; 28011274024228936104; 46503743175039581920] 649;
SciE false 419 [65076284323584676142; 84900912808464867246; 93577259800278674197; 38453717507234030305; 8722143932785651973; 27268670122235417592; 68574723076055361061; 94568152485361041430; 89351013689966813922; 65197621406413940839; 25901586154316946059; 44417783729855522524; 9073817532213492158; 19852242455313119258; 22462954120982369427; 31544791216834969260; 74271291276315361009; 53702682166584957188; 45236836468110237278; 43235513176321148729; 6486791001374683047] 651;
SciE false 419 [20564105846252757661; 14028688447474898050; 3170414096888061046; 37351374732285953576; 40756197482760266023; 55416899758626391959; 28869612492033494095; 57483536185374089092; 16234920326029513199; 55802448364426805305; 20584901224764154954; 78436019658634345117; 61267326340179463521; 99073308615878945685; 59898293502230428739; 3168154024519850286; 39469728043315654079; 1370047564640846471; 55094840323922834979; 98462422163717482998; 38449825956434399843] 654;
SciE false 419 [65188215532621241785; 81470942378495426818; 60050212687135153517; 403857901346472837; 21197146020350043294; 66671572234845662510; 94516671599746176282; 97222809707635862422; 15464697433513556842; 59893761315232972817; 50254136882502371206; 66642182317870874022; 83217424498368899364; 71062388312336257823; 34877590402070459102; 73043048257727925407; 87119037897310623430; 47343050779911483314; 81650643826835386886; 55125878258984421104; 87885948281897047502] 656;
SciE false 419 [20729852539373554887; 88907759676361545728; 31495967634508978818; 40728426812628178362; 23340692434471313767; 70401559970680920678; 48056301568719284057; 98516853487028204250; 24517773783857311075; 94646216098244085355; 96580815528635754043; 71992213977082937939; 26063140990481309997; 97797839483322929987; 82491073747858405994; 66827689345957480279; 70303854051344778250; 89055090148011851694; 11164904736933653029; 92330029286357045911; 35147731553643261106] 659;
SciE false 419 [66128229600601640092; 36615753367593330873; 32472136754083642430; 71923681532283888975; 52456808865963490918; 97580976306472136964; 35299602004214516144; 97268762623619971558; 28211698370504822332; 26921429353398632285; 53092801536348055399; 46655162586894572026; 24141419759635378893; 54975107951800146661; 16146525255668315122; 99180329013604362092; 25269294423789842620; 34085737572157806904; 21616046110818353165; 45532793423478976457; 21121263656122002927] 661;
SciE false 419 [21161033472192524829; 55717041077629865879; 46391083761306765577; 83015578090330844472; 16786178837108317094; 7225912418071083828; 59295872641348645166; 39126004039558390898; 65027743478561543146; 32614857393087562331; 36989696491631377727; 82929652027806263048; 39725254323083321245; 93592034544576046931; 57166888081813860839; 35737705284353395869; 52086174215612749638; 50907436023090498209; 34917134755461873012; 94570493895513272466; 30758804369959040937] 664;
SciE false 419 [67926917445738004702; 87851701859191869473; 7915378873794717504; 83480005669962010755; 65883634067117697871; 97195178862008179089; 78339751178729150984; 11594472966982434784; 66739056566182553499; 70693692231811075083; 69736925738136722506; 33204183009258104385; 35518066377097461199; 45430430888089110650; 34505710742622493294; 33718033962774400741; 16196619232116926339; 61412869634120499252; 1084002565032612371; 55571285404597604616; 84735762027568521406] 666;
SciE false 419 [21872467417527637514; 32688247998659781970; 33148751997361899036; 55680561825727767463; 32214530169611898714; 77496847593566633666; 91025399879550786616; 88533420295368344000; 66289976214310782226; 90563368898643166176; 95055290087680024647; 3891746928981109612; 8436817373425382506; 22428598745964693629; 41110838859124442840; 77657206936013357038; 65415311392741650281; 35574944022186800759; 14749048825940501183; 64093953900280428686; 62484915372877063893] 669;
SciE false 419 [70648069758614269171; 27583041035671095764; 17070468951478933888; 7848214697100688906; 53052932447846432848; 72314817727220226744; 12012041610949040772; 53962947554039751122; 14116623172223826592; 90519681542617426751; 55028586983206479609; 93570342580608984047; 3250920116163985495; 10444373949465960422; 99788009514971950375; 70832778403323143234; 85291455798555530408; 77907069191663366452; 4639427707787818823; 16023471097905784657; 79826276654392916374] 671;
SciE false 419 [22889974601791023211; 49336905295557435027; 59130831940279174579; 73742821561860623205; 71589150113102244242; 98630000943619353465; 9491901481947489210; 30283995007508879363; 57373785907800519816; 10128376819808046267; 50229262182558899393; 61916790996117310831; 23853298117637131300; 41383977159626971177; 5131315082850911921; 72949820202676698408; 9234431678731991852; 44441890418098930730; 46303174577323253298; 70391604635721474229; 12663713636023304905] 674;
SciE false 419 [74392417455820825437; 35344942210561663839; 67175203805907317384; 14664170076047025418; 57664737867582293789; 70547503066762898761; 55848679816329339933; 48422983774403857931; 61464804200351689402; 32917224664376150369; 38245102093316423029; 26229570737381260201; 52523218882320676726; 34497925768787656325; 41676774019265463745; 62086915658699269826; 30011902955878973520; 44436143858821524874; 485317376300573220; 78772715066094791244; 66157069317075740942] 676;
SciE false 419 [24251928090597589092; 57722451160643102411; 73299116440725785467; 23180519444791330286; 45598704544831827775; 44398485999764704996; 26806669620123364818; 31585892710455657685; 70637526169314650745; 15931015240586625020; 41867903282421153907; 53950840060386290825; 69722569355636540612; 78846323800624775962; 8586628330280541181; 7240334504735961963; 37383880363616545367; 66486182897975817108; 92558213464673986869; 97679905111546901945; 75967204597366691547] 679;
SciE false 419 [79303804856254116332; 72752415295302944886; 36688110761173318477; 84800298584467650036; 71107763861600076825; 70183049219230585337; 79657809657803402955; 89285869163190000632; 25984710573658907936; 67094419836718263816; 76908043733517173277; 65419246997463171000; 2992801792931487803; 81827478828043017396; 2078274640017369662; 10675893830486595620; 23245288789026103352; 26409818076380921946; 18665358029483937064; 82413289714758369362; 63412759033389081359] 681;
SciE false 419 [26011647992851350157; 13462792216859365922; 72833700329664848460; 73414497935705389212; 4123346546604825198; 83020040143907631990; 79727761567759516169; 53285765085526320207; 38122985068160121803; 22806969706443590531; 90025838344593632835; 7057513015167920088; 981638988081527999; 65239413055598109705; 89481674081925697249; 17101693176399603363; 43624454722800561899; 54262420329052942398; 34922237433670731357; 26231559026440745150; 94399384962951618686] 684;
SciE false 419 [85578321896480942016; 97292586393467313885; 77622874084597351435; 81533698208470730507; 61565810138329874904; 15135932073456109249; 72304335557928808197; 76310167131381593482; 28424620874246800732; 62034930334199412849; 95185008153713052027; 38219217819902457089; 55229592270788227118; 85637668952917780932; 39394707729535543949; 77264570550354695065; 70524456038013848649; 49523362882584180490; 56894161156776706165; 39301829196990051546; 60573976528110825476] 686;
SciE false 419 [28240846225838710865; 60106553509844213582; 30615548447917125973; 81906120408795341067; 51316717345648858718; 36994857584240516052; 40860430734116506705; 26182355153355925849; 15380124888501444241; 76471527010285806240; 48411052690725307169; 3612341880567810839; 55225765449360114949; 22260430754462867707; 69000253550746729503; 42497308281617049371; 68273070492544570054; 33342709751252779561; 88775073181736313034; 57969603635006717010; 37989412254276572407] 689;
SciE false 419 [93477201007526132965; 13952692117584346957; 43337465362605686973; 34109258553112578933; 46858334414097722357; 80452978603836108133; 47248025729925637194; 41663595557608114560; 69908213380939780440; 24120754404046018656; 240584406300766729; 50956851624679453878; 91797283637381980481; 92682025797272092112; 45390839252971674656; 33666090412152433420; 26983863330322526879; 84364369276646700349; 84845492231547196144; 45879388031872233304; 35744954561655454667] 691;
SciE false 419 [31034430734498676144; 42632293783038003189; 86788038500385088075; 14924273839633376205; 91156967025480443822; 79110388896473587900; 31286344542335311548; 54632313725125894034; 15209526842472007106; 16008090462143278193; 79279874022891854554; 19717674739393578687; 80076698167610817519; 99970432564694334581; 33469758631986595985; 90377142016834607895; 52958642625667078924; 10808970599846704516; 14968703420873669119; 96031956826581581457; 4667324914469610949] 694;
SciE false 419 [10334465434588059156; 9396553829751655062; 22600416820628234329; 2469783188597914276; 56855270019484987792; 98943759502525704770; 80418352732597658745; 66592560470466922713; 37264772438543178366; 35130694123893711638; 53300198049622987566; 54765985688218061703; 3765540489814402234; 15990154044043213415; 58445429624451536463; 30595588291605924429; 21135227994347137281; 72799387209748952603; 87784578239150931816; 94678641623251666625; 19654219196518380446] 697;
SciE false 419 [34517114551524117581; 35384489791370527907; 83485392180898302658; 94249075849917033683; 73896601865079859228; 58472156738435853934; 48597298126876180210; 52419151971359521862; 66464339944734215743; 61336518373804996872; 70022661485740778472; 26918392198648326088; 14576905235980103462; 9407114507104332808; 5207734945668131787; 44189264893963787593; 56591661501119438520; 97149953280561501696; 95200491318764112268; 60226663021660566528; 15645092116371390690] 699;
SciE false 419 [11563233374760579389; 75353804080109126849; 12467606380600931390; 74573440409722206284; 5255361624801752841; 57588172507376011068; 5280094872503520370; 52560415910405439823; 99265553881485962274; 11047733655224673952; 35457591597723160788; 21017661386547189239; 52883263254053334659; 80151383359879951490; 69744591206798824148; 79303403739477868843; 84458206602875011904; 52545234348988103068; 47892164591785977609; 98175932112256289786; 93241105858984415881] 702;
SciE false 419 [38852464139195546749; 57188781709166666213; 5891157438819129472; 90566759776666613114; 41658015059333889547; 69496259624783397188; 65741118771611828444; 96602997458962277808; 61532261041792833241; 1120385081554904479; 91137507768349820248; 38619342258798555844; 81687764533619204456; 93308648089196637008; 74341826454844049139; 94459436564645639315; 31779574185660039999; 20551987412600026310; 8917673028400884769; 53871131897181133684; 9290115686187637361] 704;
SciE false 419 [13093280414908899254; 60572619435989166513; 80085320056882046632; 36920998044736648619; 55838751074995520777; 57320239493552004852; 57754757026033186185; 95355210143670287621; 50336371971084184802; 22077569772484002809; 73013340117933889423; 70614718341215113319; 70328776647829671901; 98645014406059266671; 94653195515282444560; 16132830122285580449; 26209716500567433479; 73226019758046208866; 50005255810571098167; 33454571449350042051; 53930768986245233791] 707;
SciE false 419 [44255287802392079480; 56735453693643382816; 64688381792261317617; 40792973391209872334; 10734978633484860228; 19742409488205776401; 71211078747992169308; 52300610285605572160; 68136937262264544631; 50622185830995929496; 88785089598616546252; 12677747993307083020; 59711265069664291028; 71420148692480321351; 17927800841654662613; 34528965813325261918; 50588841771917925161; 49503946782196185968; 77017764639730311805; 59076451498803142134; 20285999173508890212] 709;
SciE false 419 [15002542565010914943; 91233318802145106774; 84329361427576586672; 30128817979620146721; 26239157756751367617; 35892676816501758200; 18040555695569345395; 58929906886820288962; 47098421731907680630; 8060920996707620099; 44498145373931009179; 47097756569731101143; 98242118858616194658; 73411430406750828938; 4977524485320930625; 92405319410717263790; 37349617360680176629; 74681837959164507043; 41309022212868575702; 9526917058094265183; 49476953719819513782] 712;
SciE false 419 [51008644721037110809; 30193283927293363034; 46719828853760394685; 82437981130708498852; 29213136372954649899; 2035101176105977880; 61337889364935774345; 361683415188982472; 40134633888486114142; 27407131388805908338; 11293694271365431210; 20132372337085743889; 54023204119295061839; 69598863382952818389; 36923583250091164128; 14178085996438696887; 26988699026312600541; 13918249061159323947; 60450675523753157387; 12391517997520501623; 88221642647386346859] 714;
SciE false 419 [17393947849873654785; 97195909819207036794; 75331461639132294587; 86611351565571598108; 63161679503177535615; 56593969501052138457; 28916220273443099051; 64623334044579443023; 8885910155973764922; 51545831803582814743; 29651149746535612042; 67865138966946238666; 33321912604679616087; 33633212413586911070; 77490941888281086967; 69634727324785595638; 55903146367972596784; 52846122929855329466; 13313680353599826669; 925507637154491053; 74383580142758744279] 717;
SciE false 419 [59487301646567899368; 2410011581688065838; 5633598805832447490; 50210822354254865531; 52012943900867171805; 23551375693598313523; 92893473335175398756; 63011802432461695138; 96389812733430276035; 286744768253226422; 7406932133151793185; 96098775266956136238; 85960941108004287018; 69025586454467235862; 5019021257921317429; 52150767450766737083; 87188760578466281003; 8733740420105226774; 17532786809311407208; 1165236119068359403; 80391844088234905434] 719;
SciE false 419 [20404144464772789483; 23226633972519006582; 45332324390400529489; 24222312067509418877; 31140439757997439929; 19578121862904221538; 70762461353965161773; 52413048234334361432; 66461705767566584680; 598353455510856662; 77140577721671065062; 78461879916565954729; 92884602800045470447; 41075776153882261900; 68321524291467011878; 32587713235612990819; 76805744878413934384; 5895672964096092783; 54213745875593812672; 34799675988840447275; 50474402522264572564] 722;
SciE false 419 [70190256958818395822; 31899620865465382643; 63943195902977821442; 99324753512232400937; 95123112767511193356; 43348739208390522093; 15422867057640156500; 92300885926110203328; 36628267840429051299; 22058335886957346919; 93363587362548463815; 97908866912986884270; 95523033632156418339; 9300669969354980938; 35026043562646520861; 44101733530508688420; 211762381743934281; 16281114996490559175; 38495285812042715592; 87710885401611138627; 73631944676590129619] 724;
SciE false 419 [24215638650792346558; 70005369198585557012; 5560402586527348397; 83267039961720178323; 59317473904791361707; 96955315026894730122; 13820889134885853992; 81843805644508020148; 28636752404948022698; 23110125881000284687; 37710437640079220016; 51278559084980475073; 47955446603093964326; 98708731139427468423; 73083985029113049697; 19715098068025497504; 90073058021701657327; 116984673789242915; 50780873605154736879; 54260255463555842826; 56903020913423594719] 727;
SciE false 419 [83786109731741519093; 10218577427106027261; 71238992949384625456; 50103958267551816999; 63238459710578111509; 57465389993055766222; 59820276406705054815; 15179567529997749713; 7083163321120158535; 87961035548260985018; 32478114234674101257; 13423814434032443754; 23925845246705116571; 37532209742419040746; 10870588200731151952; 30214239315368221366; 95652780755087734351; 42404766971310780487; 65701822673835389603; 21740483903903216179; 92884452360445637726] 729;
SciE false 419 [29073780076914307125; 30645846367205791459; 81419930553436465033; 40586073518840480498; 87243745519570604693; 82240490327590350879; 24157635913126654020; 85767309932909219150; 43557857672428695011; 95022479335246561801; 35869905639431913136; 22558063608609257982; 72102268300606675450; 26723676780619407138; 89972094105653709727; 44884341042432772814; 33391514922015443819; 94414454139044840829; 21698532467820880192; 31643947914654416014; 43530904969074636291] 732;
SciE false 419 [10117675466766178879; 60664754535787615428; 1534135832595889831; 62523953584556487213; 60760823440810570433; 45019690634001442105; 97606857297768075599; 25847023856652408264; 35158134470005185864; 15867822808665803506; 87282727162522305771; 40650206135796021777; 98691589368611123056; 69299839519655553684; 33710288748767490985; 15219750682766604939; 38820247192861374449; 34056230040387604608; 56751089298801666306; 92612093874299736773; 2348754929237973429] 735;
SciE false 419 [35310687379013964289; 82719993329898777843; 77354134055759655512; 37208598010102140375; 49055273808428890812; 74118720312665032949; 85647931969210583841; 41206113259716904842; 58701889300318098665; 91378701602243654238; 98616717797202847142; 20869219413928116005; 17433646896452819467; 85856439923597882358; 33648907733198543538; 18116929882855451238; 46482662703086196828; 19856242840952740083; 90061301652817815411; 17216207621306081337; 85197154703040527268] 737;
SciE false 419 [12358740582654887501; 43951997665464572245; 32073946919515879429; 33023009303535749131; 42169345832950111784; 45941552109432761532; 44976776189223704344; 49422139640900916694; 90545661255111334533; 6982545560785278983; 64515851229020996499; 77304226794874840601; 81101776413758486813; 75049753973259258825; 41777117706619490238; 36340925458999407933; 46268931946080168889; 86949684994333459029; 36521455578486235393; 91025672667457128468; 24819004146064184544] 740;
SciE false 419 [43379179445118655130; 5271511805780648581; 7579553687500736796; 94910762655410479451; 29014403873654892363; 45254847904108992978; 89868484424175202249; 17471710139562217599; 11815271005440784211; 7508734918356329232; 59450637813863697714; 20337836050010690512; 35667235212292288716; 26424636446139998477; 21637683150234410736; 65556648361087921846; 45403951130741392803; 44193394330110441193; 7190309080486686232; 62500111062774520923; 55114704552685287749] 742;
SciE false 419 [15269471164681766605; 77855572155634788300; 53868002898000259352; 52608588454704488766; 85413070163526522111; 93529706462246365528; 57233706517309671191; 70950041969125900594; 88958975393915156042; 29843074691261427889; 87326624510480021595; 39958918289603763060; 34954866794726885628; 12501472029041279463; 98016464468882512579; 30275940223102948489; 95182190798020970266; 81156074804198875299; 96130988796331313553; 88400039094096631365; 9000376002545221288] 745;
SciE false 419 [53901233211326636118; 39830169709390802700; 90154050229940915514; 41708317245106845346; 99508137677248623055; 13159863811729670315; 86034984006103139306; 73453648151014429099; 96025183140520500829; 31346053660152840451; 25262984521994476231; 76054981562301283603; 3390679785385906267; 28130196262515716507; 84998119575155269404; 93874068987553408169; 52993133517014025041; 84480944058822029808; 86342390451049536845; 21052138002161108718; 76771327288984631145] 747;
SciE false 419 [19081036556809629185; 91299880077124344156; 11914533781399084092; 10364744304767823252; 83625880737746012561; 51658591789352303291; 81456384338160511314; 58402591445459107901; 38592914831744257293; 57696502995694105519; 74343096520786044586; 4323463473054654395; 47400300644026610818; 61758089476930563643; 77889334329604965369; 34831420421593906492; 1359569265022964864; 81306254196822998552; 33765206219671536043; 20452456852765032486; 44377049860300559425] 750;
SciE false 419 [67737679776674183609; 99114574273791421754; 22296594923966748526; 96794842281925772547; 56871876618998344593; 38388000852200676685; 94170164400469815166; 77329199631379833049; 92004847652692113392; 19822585634714074595; 8917992648790458280; 45348295329344023103; 93271067286294468406; 9241217643103500935; 41507136870097627061; 18651542496658368046; 64826470890831525270; 8637202398721644860; 79866482079833952953; 37606221827315865326; 87538527004066985960] 752;
SciE false 419 [24114614000496009365; 15684788441469746144; 50337587792932162475; 60058963852365575026; 93446388076363410675; 24466128303383440900; 19524578526567254199; 37129195068771220565; 77153725764358392367; 62256840485958210555; 85174805382969403147; 84143993137246472225; 4499953920830752; 56889873480944846333; 776540725754755233; 78239949128810379024; 60678223637136022996; 15074844053944905570; 44432467620420887251; 40187814970524448056; 36763715613447847002] 755;
SciE false 419 [86089171981770753433; 60994694736046993735; 87705188420767820037; 89410500952945102846; 15603605432617376110; 62344078043078884013; 69702745339845097491; 75551226395513257419; 80438800978759460752; 41256920534870811684; 39074055217200769237; 79394055499969905843; 25016064835497365786; 67096848326973101408; 83772250390944476184; 60316618389853053117; 84621258384575602096; 25817193272583312886; 48623909404902567487; 50470499444772279561; 23246464740008813797] 757;
SciE false 419 [30819923569473929729; 23236100715504823757; 44398457454634879573; 56608959341154346818; 92386090744877020647; 60319179939422240476; 90353582831664544902; 4847339049593746156; 28997090750395886949; 36369977551483750583; 1188511767757875387; 13023071868989226291; 88355751211108056951; 62820671701056370304; 36390465639958122474; 8793349383567393016; 18894410501678065550; 46042555191584826013; 36207359566955119160; 52668438801228476082; 92122234376923155339] 760;
SciE false 419 [11064352561441140772; 79441760156866231728; 92239046226213921766; 91022616403474410507; 99366606577410850412; 48954585598252584331; 20836936236567571619; 83540194718804154870; 10809955579392123414; 82156821940982666459; 30126675724625077263; 97975282800967132238; 78619714684787792445; 63452621140679236939; 26664177164744965968; 19756812428700694092; 81183093370102425532; 61529277313778952538; 79698442084536887778; 62907969529641022913; 76871882141315412767] 763;
SciE false 419 [39831669221188106782; 5990336564718434224; 12060566414370118360; 87681419052507877828; 77719783678679061484; 96236508153709303592; 35012970451643257831; 40744700987694957532; 38915840085811644293; 35764558987537599253; 48456032608650278150; 32711018083481676059; 63030972865236052804; 28429436106445252981; 35991037793081877485; 51124524743322498734; 12259136132368731917; 41505398329604229139; 66914391504332796003; 6468690306707682489; 56738775708735485961] 765;
SciE false 419 [14379232588848906548; 32362511499863354754; 90753864475587612728; 27652992277955343896; 18856841908003141196; 7141379443489058596; 83839682333043216077; 13808837056557879669; 19248618270978003589; 90211005794501073330; 50792627771722750412; 26808677528136885057; 52654181204350215062; 34663026434426736326; 27092764643302557772; 26955953432339422043; 1825548143785112222; 18683448796987126719; 42056095333064139357; 10635197200721473378; 73382698030853510432] 768;
SciE false 419 [52052821971633041704; 93152291629505344212; 76528989401627158076; 36103832046198344904; 20261767706971371129; 77851793585430392120; 55499650045616442199; 23987990144739524402; 47679998140940372995; 44563840976093885456; 43869312533636356492; 41047412651855523908; 24608135959747778525; 69480155692624785501; 10075808008755259135; 61580551425068707795; 72608484280502106244; 31634084645093398724; 30243065105692184472; 72499413866611733631; 1645366871689707763] 770;
SciE false 419 [18895174375702794138; 89014281861510439949; 23380023152790658381; 71905691032769999200; 22555021677630607720; 10960201071511232339; 76146372966558768518; 32407640422540447358; 9907839325161355397; 34676674274322080420; 68724560449709997406; 74500210792623555178; 69332753353388443604; 82721296516422797136; 89957518307178159066; 22853740167299940929; 84856879793822264566; 68683172726168903736; 92178232633366262963; 59917287233580059308; 5897268174423363918] 773;
SciE false 419 [68778434727558170665; 56011985975898001415; 21103284276157996509; 45736715359282797088; 82100278906575412101; 19895131900300885716; 73172797598273917406; 69963811138047228383; 48064535143587333646; 34223094358532372731; 30157400036944390560; 55180767285149740850; 44371222206333934721; 57105519319778981578; 31445366638128499001; 7187614208971784984; 64879042449513043022; 74006748723254809602; 39528766785453197187; 50098925530231415881; 33466056154901044661] 775;
SciE false 419 [25104128675558732292; 92944374881202770516; 55202698760797668725; 95193901106138220937; 41966601800900025416; 93761723143609823286; 60708071123369979853; 44536791065387238359; 97043555327409376780; 91491429440864316046; 92507451013484702554; 60140980059079655410; 41195496105311886173; 37343514551719328276; 8477558822916902135; 39123479186274701519; 39680850494072260703; 30012463283988005504; 87427999876690416973; 43786107818534466796; 68715110496538881301] 778;
SciE false 419 [91881110952544960192; 12176412065202140090; 58041877464519467536; 98409678048465888630; 95597762591294093025; 99167906705611953228; 98191540311534126263; 61004655299317292397; 49179412498318319018; 14858631753563396731; 74577270709354011349; 84115987016231538802; 10775515745441503394; 54677263259292741490; 47027865291875861815; 53191933821765407560; 99231912808304474174; 7845615619396100147; 83986479548686926122; 78257154615836148475; 87497304417332305563] 780;
SciE false 419 [33720367719584000390; 50868743227929185413; 24301369029478644586; 7316351843786981127; 56084378871004932140; 53894621760959586835; 3636295294333024338; 74488708494849446309; 87948844386882823079; 66053117853557766600; 55069858350332922165; 39170567234956974740; 37354614278577031745; 79866555616160436127; 259226562118441286; 30021439712587904574; 88418112000647742021; 88679340932318368754; 25723037994368101887; 6120375744011866490; 64611510721160956142] 783;
SciE false 419 [12409095320806912143; 70719697507877940232; 7342903802848141207; 67492417478513609054; 94239051424529815027; 71833220808033127955; 29338156668314552956; 65811844726104596242; 3565174734372878893; 31507547370109258109; 265707872922515356; 86414768742464166704; 45746498054516347682; 45390892466747040494; 73695395374859586393; 35847889814232348883; 55737865216238369064; 5433997463093159701; 56666077981927461494; 43852298273796366868; 55777035945387231860] 786;
SciE false 419 [45789561733777505810; 27955683804069599456; 35095315032509641056; 32047020495715217412; 73742099756515017452; 28064584781642242155; 3257798106080700410; 6845707039325960133; 11155494769835923116; 33262849795703162422; 21980462051084081666; 82870496659692775139; 44804577821165322948; 25492393202296579425; 57936008933231873791; 49278713414517367380; 32672722647919581846; 36051450638813759298; 78097827753312332914; 47814980630308593744; 97817262638478885564] 788;
SciE false 419 [16942137841497677149; 80343603007505751798; 84985266562028567190; 83857397583414630442; 71284576909910556457; 34383896369207629597; 36205385299249859151; 72532911604550605249; 25127533064839291553; 4307254424410170096; 22132770958901110216; 72662083764086326801; 59577693793831169490; 85432185484849734387; 46436323305295793302; 85233123963371425930; 72088907379730245283; 15339036736361090940; 54896196268725563178; 35691542833214179685; 64192387176237187659] 791;
SciE false 419 [62855331391956382225; 77074767157846339173; 73295338945125984278; 1110945034468278942; 46465780335768164456; 74564255529760305806; 21321979460216977452; 90097102052882745474; 72223147670553771661; 78979913914561731056; 98112580257523118904; 5576330764760272433; 92033243975113638811; 6953408148792514577; 49278759462647393153; 58214889904107990202; 97449846378799210000; 49907826291899647389; 43664888156971839391; 70415623911224606633; 73153756423839966213] 793;
SciE false 419 [23382183277807774187; 98671813382718838172; 62865866087586866151; 42013271552822199766; 59685270284905757177; 90937903057070833759; 91131776359200715612; 47916121963672381316; 59667010933446003058; 18580527976216963953; 19697879855798600232; 30874395044490821345; 41836366758742273637; 71786667831350815422; 82731698520104830253; 13255939044328172355; 50651342852913306120; 18565711380586668828; 87043338394393524253; 71394612094975553667; 74813197389668467431] 796;
SciE false 419 [87215543626222997721; 19045863917541266383; 90489680506699010744; 79709502892026805129; 40626058162698474273; 60198378402874209924; 46921525819818669234; 54727134924497982310; 90557950781753591407; 3305369351289275545; 42473091862128778866; 51161493515950763618; 41049648010108680668; 68764271010938541527; 14589235479991016844; 18444652635344082886; 3929508841366631828; 29250103449588274731; 68671652211087845466; 35301903114258815180; 70053226263463383519] 798;
SciE false 419 [32618613316207401147; 72523153105160433627; 58043140509505430018; 55411354081618025118; 39794145752849229378; 32714193522674954511; 75148650656612182293; 72067948461762245384; 27868673592375843186; 23036208137382189053; 98884936356436163296; 7534398574965585593; 28552568355780646570; 8917837358091014531; 15256374069516640299; 72498300085618686999; 37869636306671120303; 78139538690146014749; 65083197926946854204; 41602911764732796877; 58199906622535305436] 801;
SciE false 419 [12231979993577775430; 39696182414435162610; 34266177691064536256; 95779257780606759419; 39922804657318461016; 87267822571003107941; 90680743996229568360; 14525480673160842019; 10450752597140941194; 83638578051518320895; 24581851133663561236; 2825399465612094597; 48207213133417742463; 78344189009284130449; 18221140276068740112; 39686862532107007624; 76701113615001670113; 91802327008804755531; 11906199222605070326; 65601091911774798829; 9324964983450739539] 804;
SciE false 419 [45992244775852435618; 29257645878276211414; 88840828118402656326; 16130009255081415416; 94109745511517413423; 44127012866971685861; 56959597425823177034; 14615807331084765991; 83294829765249938892; 58481053473708886566; 12427760262574990247; 46623501990701475686; 53259121381650711663; 82574150674908330488; 92511487438018462822; 61222603120722348669; 12396187192406279628; 33176749553105880797; 767309076995064428; 22660105588273243597; 39061868337774780665] 806;
SciE false 419 [17339076280496368228; 9630132496110131703; 41292992200637801434; 96281013489165693612; 18679374057842064860; 63735883850848325569; 81173768229535337741; 87310159363818956778; 92102150821499226962; 50447357159588250235; 42885265618990771323; 29477060250494456333; 82278688760882318297; 26230454804440440594; 32476830764132960484; 12480921376512325448; 25973362571537167419; 88107634581520917060; 47189275522027139289; 44142859806779012836; 21626324363341092311] 809;
SciE false 419 [65541708340276271902; 20401900835296297838; 90087510518410889424; 15942230989046321854; 6608033938643005173; 20921640956206670653; 88836843907643576664; 28032402395235656624; 32146130105267077918; 26691010063243585889; 92106304039785115602; 5423287746869044941; 85013443516135163163; 65151119160784865446; 54762420288422590629; 99177882803216590194; 42179310520410492847; 15046858718149066488; 58375461473262586514; 8860010069624668520; 89747506093429328934] 811;
SciE false 419 [24840307460964707050; 93532320416577296880; 94343166486477727091; 75642105544848555982; 69104444862745698960; 64629301922402328177; 82369163840996915555; 76224280507794313860; 61783383309896222531; 2315892813969319052; 28008289231078558813; 17855426056063368032; 96120095092615226839; 2392274161937464004; 24154957289312161848; 76688417582419087683; 68585958687235576789; 7002759454178496199; 17324299898366520288; 83957943816387749369; 42014304809409715666] 814;
SciE false 419 [94393168351665886793; 55422817582993728147; 58504032648615362948; 67440001070424512734; 22596890478433656050; 45591347305128847075; 73002822595788279111; 89652265929618392670; 34776856577605645617; 88800392693083412398; 66431499078098523490; 7850619013040798525; 25256361351937861988; 29090641815362363216; 11788837699386215025; 31415986813192533198; 626643011495191798; 46610485925878285556; 85832339613792777097; 59040186502273447603; 79654358275756919531] 816;
SciE false 419 [35963797141984702868; 34416093499120610424; 22990036439122453283; 44494640407831739351; 74009415272283222955; 22370303323254090735; 85314075408995334341; 63257513319184607607; 40249982356067750980; 41532949616064780123; 89110401148755537449; 71991085843968544238; 12122673675088325417; 53883534531653060385; 34091547163466147924; 64469490975826355148; 44038750987379668075; 21558595137759626797; 16302121392855048074; 18194311057366183537; 4648310503063386341] 819;
SciE false 419 [13738170508238156495; 70746947716664073182; 5582193919744777154; 27596952635791724432; 36471596634012191168; 89545455869483062661; 9589976806236217718; 50364370087928520106; 2775493260017880874; 51865586753336746007; 32640173238824615305; 79300594792395983898; 96230861343883740309; 49983510191091469067; 20022971016444068507; 21427345552765667666; 70422802877179033204; 73235383342624177436; 51627410372070628364; 33750226823913882111; 15175654612170213582] 822;
SciE false 419 [52617193046552139378; 55960809754823400287; 27379802712622496500; 87696328595082304575; 95686215108266692176; 86959095980120129991; 99729611167884713861; 86895537436766232006; 8630139185868483749; 40645197265279737208; 6011863504698276621; 18721278054876618333; 2564198947074725385; 38436844031880326527; 37687978992980782382; 63066733467092507163; 47719335019595697174; 12491518202250599581; 85732981725030506635; 41263368735590168485; 71122757164611918021] 824;
SciE false 419 [20205002129876021521; 36688950945852185710; 31313844241647038656; 33675390180511604957; 16743506601574409795; 91792292856366129916; 92696170688467730122; 95767886375718233090; 33713973447373497759; 77207755749867419087; 89508555585804138222; 53588970773072621439; 88184652395676694547; 98759748108242045386; 51272183933304620434; 93017625651363522750; 77524224647524747714; 86396742989664230239; 43321464982411714547; 99845133594466624698; 51311138751210976520] 827;
SciE false 419 [77789258200022682857; 26252461141530914984; 70558300330341098826; 89650252194969679085; 9462500416061477714; 28400327497009600180; 16880257150600760973; 38706362546515197397; 79798797772387966375; 12249859636989563488; 39607939005345932156; 76317537476329592543; 54510911723355274009; 75225030216731874738; 7397908143222788674; 48117858757749562590; 48468264892970278702; 22627460510207286421; 81787640182285101009; 79403764338696505089; 27547884192162259602] 829;
SciE false 419 [30026653665208755582; 90333450000630933184; 9635503927511664147; 18204997347258296126; 84652525160599730397; 71362526413845705669; 54515779260131893735; 72740655942954866195; 55002335940141755020; 79728445819877971506; 52088664456063529812; 51058569465863222721; 80841211925215135767; 76436861663658503648; 89655592543283996428; 34973493480491331159; 92708750248686527579; 5934199756940012558; 82170029110362048989; 78049853034736850964; 46033483298174632206] 832;
SciE false 419 [11620314968435788410; 58359045150244171142; 24528940019947014024; 95945333973388960601; 8960527237152095663; 91517297722158288094; 11397606573671042875; 72650633849923533217; 67785904008834859193; 4854908532292774973; 2358313144496586037; 44159666383289067193; 33985549015058257542; 12481065463835840912; 12296714314250906617; 77134741976950145158; 89178286346241686173; 9596535305935784860; 26399801265710112959; 4505293124443161323; 24614958036393582664] 835;
SciE false 419 [45086822077530859033; 6433095182947384031; 91172287277394414416; 84267895816749167132; 22766845680150131175; 99087115161974157805; 16222713505843646357; 81884459337703308884; 59009307554279253669; 2837045105295966895; 33150255000646753825; 27339505567161580710; 15863930178426039263; 44426533999683062739; 3711251539293517676; 95282798870566563216; 50011751023417742351; 61234556987030845257; 82431228910955238281; 9480537322839465934; 19506037181207100736] 837;
SciE false 419 [17538773788159504163; 86202474026166532388; 41366019750906427208; 15180211472715426014; 43656302969578401027; 46044887798007947386; 20810635553773178433; 19153054682366587156; 10554620638614629677; 25203610545960131122; 28395449195251587238; 3135067665625854896; 25171068839407729273; 47981921725876711405; 48543676848785178376; 33465008760650393091; 21854571148109501774; 77720242667954998805; 29365748046361587691; 34587929018584552248; 40187848463489562186] 840;
SciE false 419 [68401217773822066239; 6189648702049476314; 81327477028535066111; 79202824743590161456; 30259581581355764007; 9575062412230994806; 21161478659715395889; 44696913261229689908; 81163020490597055741; 28294081129244511376; 90742251861481190228; 32226763895940834095; 38167168473690144166; 57129494730919174481; 39320339710262195667; 70513534166536533055; 75232827477627056921; 63108946405024495340; 64526417380810191996; 24892923172479753768; 76732609007609292526] 842;
SciE false 419 [26744876149564427899; 47320152642501345239; 9199043518157210849; 71068304474743753129; 41431496398310103726; 77443849403182318969; 22874138155948719792; 77376493085140808754; 34534741011823448794; 84162985721534603948; 37080220477839145379; 27400664683312866131; 29423362873212846369; 12937632439789397222; 22474252826712518506; 7270791859115784424; 79916035543752179256; 35775598044364577678; 19229829195896785070; 53333132960439583723; 58802450121975233378] 845;
SciE false 419 [10483991450629255736; 59349499835860527333; 72406025059117626653; 8658775354099551226; 73041146588137560660; 89557988966047469035; 93766662157131898158; 76731585289375197031; 70337618476634791927; 57791890402841564747; 76135446427312944988; 67541060555858643523; 46733958246299435776; 69871551916397443711; 11209907108071307254; 38050150408773387494; 52127085933150854268; 49224034433390914449; 85138093044791539747; 64906588120492316819; 64650560447814291484] 848;
SciE false 419 [41202086400972975044; 81243534354931872421; 53555678482332272746; 63028987141611236321; 5051706091380613397; 31962896636566553311; 23502982277528359763; 95555130187244524334; 59426840613174732275; 38122129283167349458; 70212304459339873805; 49436367984524469047; 22664455907956782602; 42595199031441953784; 67054934934720237509; 71537091106479412853; 46859447717282857275; 17450455323226293787; 91592705666030751208; 26082891313534805101; 21076702559910165532] 850;
SciE false 419 [16233622041983352167; 65609952535843157734; 8500937322038915462; 17233420933794827110; 49390372200003961678; 54393381274807222004; 62660175017346173746; 99848721293774342587; 83014175201590844516; 50020118937567935686; 72863647956979910279; 36477928985902640804; 60729795627734972345; 35582508418388129791; 16019644364279773578; 82785613895952888664; 26662622400609445766; 41875479397351159752; 43887526032416115976; 5476659177532713209; 87704220808604605220] 853;
SciE false 419 [64122807065834241062; 24159312516580473049; 63578702422053716075; 58072012688489567086; 45091970190015648630; 24853856035488526918; 27507691318517386300; 64402449110408653221; 92905992046283835840; 17579469803393345962; 57811409430070645603; 49087819494315431178; 19882692729553140764; 15550908252633112675; 8277595238905105636; 37003174889013910223; 85317358482407310777; 35408143619537081022; 13355727828043658105; 41632803751254217179; 1431672193988190618] 855;
SciE false 419 [25392631598070359460; 64767087756565867327; 65577166159133271565; 92996517024641868566; 23456420195246196857; 57842126990053456659; 63693045762132884975; 5503369847721826675; 88390772850328398992; 70961470042143765001; 18093318134307975658; 98238776519748910746; 56673546320903043742; 60558159668042712619; 33277927714606421832; 253257256049508448; 64585673959033295067; 83221624873336684084; 76488868219905288609; 74486590285496670002; 88966942188819323485] 858;
SciE false 419 [10080874744433932705; 87712533839356649329; 7934134965175908811; 67419617258782821820; 79512198817512740152; 45863324415051222293; 87586139167566755335; 9684837829545565190; 32591136821580374400; 10571703606731074705; 46883047299320266336; 61600794278340317566; 38699397889398508365; 81441589388212956909; 87511337302698749467; 30500543130651654854; 11240512561736218141; 92938985074714663581; 65166080683302399578; 6871176343342177991; 14719876048961271423] 861;
SciE false 419 [40121881482847052169; 39095884680639464329; 73577857161400117070; 46330076689955630846; 76458551293700705806; 78536031171903864729; 62592833886915686233; 68545654561591349457; 49712724549889890112; 42075380354789677327; 76594528251294660019; 73171161227794463914; 22023603599806063295; 94137525765087568501; 30295122464741022879; 87392161659993586319; 36737239995710148204; 87897160597364361054; 97361001119543550320; 71347281846501868404; 76585106674865860265] 863;
SciE false 419 [16008630711655973815; 58699257987575146267; 56457565007398646711; 11485700599292296707; 85906961966186581616; 90735876437589642027; 12074540720879358807; 24049716170074948433; 54135377095406066154; 85588076761561081253; 77861216772266569347; 87295293329889991101; 77387417836322619255; 8060872780269939832; 1987753863431668129; 6969472502337440941; 42758158758288349133; 74670967078348380060; 93447039446697876577; 96467565456754245493; 50157457563271478246] 866;
SciE false 419 [64034522846623895262; 34797031950300585070; 25830260029594586844; 45942802397169186831; 43627847864746326467; 62943505750358568108; 48298162883517435228; 96198864680299793734; 16541508381624264619; 42352307046244325015; 11444867089066277391; 49181173319559964407; 9549671345290477020; 32243491121079759328; 7951015453726672516; 27877890009349763765; 71032635033153396534; 98683868313393520243; 73788157786791506311; 85870261827016981974; 629830253085912983] 868;
SciE false 419 [25677843661496182000; 20153609812070534613; 17357934271867429324; 62823063761264843919; 40594766993763276913; 51940345805893785811; 50167563316290491526; 81375744736800217287; 40033144861031330112; 38883275125543974331; 6089391702715577233; 98821650501143545727; 24529418209461481285; 14929639939552983490; 55988357196944395679; 2779033893749255270; 4984086648294512010; 52972231193670801617; 73889051272503394031; 5533974992633809771; 57652561931487451106] 871;
SciE false 419 [10322493151921465164; 8101751144452354914; 49577889577290706588; 50054871632028467255; 60119096331492837319; 23480019013969301896; 22367360453148777593; 77913049384193687349; 53493324234134594705; 18031076600468677681; 8647935464491662048; 6326303501459705382; 35260826120203515476; 63001715255700299363; 20507319593171647062; 96917171625287200618; 56003602832614393828; 23294836939855662250; 33103398611546364400; 48424657947038791528; 17376329896457955345] 874;
SciE false 419 [41599647402243504611; 24650057112142990305; 41798894996481547551; 65721132677074723040; 7279958215916134396; 51624476626296286641; 78140462626189573702; 92989589018300560018; 62578096663562416661; 87665238699888771054; 77851179921901398053; 69495003110882612690; 88101129264420167370; 81896912480472206433; 71644497960481737663; 76576201649907418492; 79694519415436007127; 77878192867618318868; 83406696404531848533; 95151371526566329858; 54026609482725560039] 876;
SciE false 419 [16806257550506375862; 94358623073305768083; 38886753578578545210; 86951337601538188108; 18941103119230118296; 19256288557023699803; 27968746900980587775; 98367793963393426247; 52481551052079216331; 39816756434755063506; 13051876688448164813; 69275981256796575527; 11592856222825747617; 81086352642110771399; 22144377176034622016; 16136785466562597071; 8996585843836146879; 62262789918517800823; 896305347430866807; 71641154096732797262; 85026750231021126256] 879;
SciE false 419 [68065343079550822244; 92152423446888360737; 72491351993243108104; 2152917286229661838; 16711467632881979099; 57987968655945984203; 28273424948971380492; 73389565551743376302; 47550281760920826142; 16257863560758007199; 82860100588215067495; 45567724090026130884; 81951067702444277852; 13399728200548624166; 84684727562940219165; 45353981139578518137; 91436172667536394862; 47164299169997093333; 18630036657095010571; 25146674091767828914; 54358338435635561336] 881;
SciE false 419 [27634529290297633831; 43813883919436674459; 51631488909256701890; 23274084418209242706; 29584855858950083514; 42943115274314069586; 53279010529282380480; 4996163614007810778; 80505414394933855413; 71800692605667750923; 13041200838815317403; 15500495980550609139; 23672133487192376807; 96640289649422741411; 73981999390553728981; 17413716342668878363; 99323086103019776314; 16348705463018819893; 27363794882780574291; 92809549681257738539; 30469485404868037903] 884;
SciE false 419 [11247253421151136969; 39532250755210726505; 2314015986067477669; 32472552358211161781; 46241036334592683990; 37277847916645826321; 71884557285417928855; 38033438590901178986; 97365703658738079153; 38322881890506774625; 71407768741397834183; 8408701864084097919; 66934558329287297360; 84232597887315055754; 57810673751955367695; 33787382551466233494; 14524496043929048959; 86453923123448659696; 56237064517291693736; 81473486720271899585; 49701080559781291426] 887;
SciE false 419 [45888793958296638835; 13291583081259764140; 49441185223155308890; 84488013621501540068; 36663428245138150680; 72093619499914971392; 61288993724505149729; 95176429450876810266; 85252070927651362945; 80357358113267640472; 91343696464903163466; 98307503605463119512; 25092997983492173232; 23668999380245427478; 67867548907977900196; 97852520809982232656; 11259943859230519756; 24732006343670531561; 97447223230550110446; 20411825818709350308; 82780408683907669020] 889;
SciE false 419 [18768516728943325283; 56936257480235243533; 46221444756270521336; 35555597571194129887; 96195342152261503628; 41486290375465223299; 57867198433322606239; 55027159645408615399; 14268097009409407444; 83366159468326464953; 42159571854145393857; 99607768974634415880; 51063036175248298851; 98480620746520379838; 77957827503362961180; 56421681011282733156; 35005317038425282580; 30515390594561247408; 84755914301294995172; 49748436759852124276; 31057187151718236629] 892;
SciE false 419 [76950918588667633662; 63438655668964498487; 19507923500709137479; 5777950041895932540; 64400902824272164876; 50093790539407415528; 27255513576622685582; 15611354546175323136; 48499197738578570523; 81801253820138506309; 2854244601996114817; 78391852796001105110; 9358448318518025293; 13770545060733557338; 99627092763788140840; 31328892146259205941; 3521799857543658579; 25113101437701114376; 27499248635309480207; 23968590715393709532; 87334467322044770179] 894;
SciE false 419 [31626827539942397435; 34273287479944408878; 23717756558791455503; 89274737467219228274; 20468771060775859764; 24188547911696447782; 12002016079991923774; 26616266718478057809; 9533170270555792485; 28920315320076926093; 1073094531420403190; 10919051499156454200; 24846322258910908395; 47959694019961492066; 32746735125916925885; 36876174672112533641; 76547459741450443676; 7221484690895158008; 64902191189112196365; 17551090784026814618; 1094466069360400544] 897;
SciE false 419 [13030252946456267743; 36120594441737096457; 83371715702222079667; 60381191836494322048; 97233133677039654222; 86765681739618936486; 23344830624956672594; 99765901888012959817; 34727666151468986503; 93915169911871693550; 32042114946945206114; 32498649217652459130; 50236684770671294258; 93759393936224134731; 32691654871877773464; 77192983964910363860; 40737553413477582794; 54175251692648805099; 56339702769914224902; 45231049403019047622; 62050920020576485024] 900;
SciE false 419 [53814944668864385780; 8178055044374208370; 85325185850177189027; 20374322284721550062; 25572842086173771940; 44342265584626207688; 14414150481071057817; 34033174797493524045; 64425261205566914261; 26869651736030094362; 82333934730883701252; 16219421268904656208; 97477508102872445289; 41226296956605676440; 38016534620855204409; 50807023775079802743; 48246095597662416941; 45743789490639565061; 19682972439745748847; 12804234034468666681; 42270299684980883149] 902;
SciE false 419 [22279387092909855712; 95385714788370922265; 53324626941973356257; 26234969425874721725; 77387156623675941583; 34357697952035249982; 89167458299163417936; 37889734366162318954; 89672058139104702504; 16524035818716459066; 20886248978585852318; 39514840405326527670; 51555688354589192349; 81667686940034750046; 31738845333034054625; 53634107842883038335; 80173883577432240613; 76337928849124779935; 33548750590054740022; 71100952890270028006; 10899904069582085624] 905;
SciE false 419 [92459456435575901208; 75850716371739327401; 96297201809189428467; 63875123117380095161; 96156699988255157570; 87584446500946287429; 44951941528184435; 97242397619573623662; 82139041277284515392; 28574748647673305124; 76677933261131287121; 33986587682105089832; 63956106671545148251; 73920900801144212692; 21716208132091326695; 97581547547964609093; 57721616846343798547; 11802404723867836731; 64227314948727171094; 25068954494620616225; 35234601888765655338] 907;
SciE false 419 [38463133877199574902; 84353898010643560199; 21659635952622802242; 53772051216830119587; 37601187195114145549; 48435129744393655570; 46418700007675724725; 36452837409742627443; 73369841171350358403; 19087095437432094931; 90298020236630615442; 47738420475755717370; 37805740375362781672; 72351094733275992479; 96233942582949991905; 52593923779953277382; 92812192608079020195; 60109800365129020080; 36318563018670503175; 20828685069762176349; 74657594385726512621] 910;
SciE false 419 [16039126826792222734; 48575575470438364603; 7332068192243708535; 13822945357418159867; 93579695060362598694; 13497449103412154372; 88356597903200777210; 47700833199862675644; 3695223768453099454; 13059318797409183586; 60354274438674966639; 51306921338390134143; 44764993736526279957; 52570406503776088864; 14429554057090146624; 60431666216240516668; 68102684317568951421; 56565786752258801373; 51144840778785599824; 6185561674090827537; 84432216858847955763] 913;
SciE false 419 [67043550135991491030; 15045905466432364040; 84648045043578701676; 87779911594007908247; 97163125352315662541; 48419337252262805278; 65330579235379248739; 79389482775425984192; 7446035352133955718; 26587952573170387392; 280867153661360553; 16462931194470760719; 61117673818679850222; 45744299185784051452; 12315535958636812890; 84604364783885359675; 8669220447438216942; 14444988624441789741; 27785434455323807264; 57855647797699659108; 18926666469984455088] 915;
SciE false 419 [28091247506980434741; 63304234390435160533; 11467530873259476002; 61179782957889313555; 90011349522620262604; 88187702308698115411; 75573512699623905221; 97364193282903487376; 47919888812544127445; 95340352128158392317; 24917683337384110071; 77597968170483248741; 51708305330026857243; 20966861358843517558; 43960209566668824601; 26449228844447965703; 86132403367476612898; 75852450233641109901; 59542097036780675243; 85841516427236157166; 33130273250923486682] 918;
SciE false 419 [11798323952931782591; 48587778443982767423; 90816362966768979921; 9695508842313511693; 47804766799500510294; 5038834969653208472; 93740875333842040193; 22892961178819464698; 12126353301268533527; 30042947893826524773; 24465427001701326230; 14591146631602964471; 43717488238611280042; 14806081770714277374; 54463288018000906332; 53108676114668145595; 62175609414340177417; 47858029098129266158; 67007680755447883602; 42053436899439186009; 85914714765387864406] 921;
SciE false 419 [49670943841842804710; 15554547249167450854; 65336888090097405467; 81818092226139884229; 54258068225897148337; 95213495222240007671; 6649085155474989213; 49379366562829946379; 9051947398340526149; 93480810633009669295; 35999447677162583428; 91428727319048480424; 75050625484553488977; 44333604254707107746; 83290442555783815659; 95587526442752892957; 56759315634372146927; 58482302503124210528; 102335980435589966; 19044969346638973101; 50700949162282909151] 923;
SciE false 419 [20961138301257663587; 68564018939148664260; 66372166774021105107; 41927234919431031144; 86696904791328596598; 61580094983785283237; 19005913935610445448; 9438092689514237371; 97619921802099702035; 27248902087130080442; 64191766919762610207; 182922928638458739; 24471363954481572348; 48108780995486399469; 16348566758540770208; 50137936158841720828; 9352431197705046003; 44079531656318416842; 81643185783743818965; 73236977064281646648; 83595800546483387662] 926;
SciE false 419 [88665615014319916975; 91025800112598849822; 60754265454109274604; 38352203709193261742; 78727907267319963612; 14483801781411748093; 31395015947632184245; 43923132076645224083; 45932269222881739609; 20262855828560240272; 37531174070595841175; 61773763988140680467; 513869527457051034; 7500143610907469754; 56154437388627457981; 96083469951900479102; 83560783966292344594; 55456418906226903245; 11350675865236354225; 4792412981911365324; 57610236311624729809] 928;
SciE false 419 [37594220766071644797; 78594939247741912324; 78559808552542332432; 25861334372697942978; 94180632681343664571; 54941131955318581191; 56511486761796046120; 6623408000497575011; 38675282150501857594; 30191450871309541875; 48713217805932636658; 46192075930971648518; 1017880679641789638; 44780060891024767175; 93409481452778042184; 35139391259605803139; 60229772401707954108; 9113521616240206975; 92812686566860214191; 42031983104330418897; 62026740196128885439] 931;
SciE false 419 [15977543825580449039; 5902849180290312738; 3387918634830491283; 70991067108396625766; 5026768889571057442; 90849981081010397006; 41517381873763319601; 2814948400211469379; 83936994913963289477; 57831366620306555297; 8203117567521370579; 84631632270662950620; 15432599288847760596; 34031525878685526049; 77199029617430667928; 34934241285332466334; 33097653270725880495; 93873246686902087964; 76945391790915591031; 35363592819340428031; 48861364583354776312] 934;
SciE false 419 [68064336696972712906; 39146137508036732264; 2432533384377892868; 60421945881769625763; 37414035469572704706; 79020919405104291247; 32864046782231741500; 37991680184900859558; 11571598333483613174; 48361621802505925565; 56945280837641038670; 14530753473024169641; 85742872970491460140; 40974300243200340972; 2867866170254645374; 76819867875516306584; 24996002933292250912; 69900030886202894729; 91787369029300417793; 56648905410390223414; 14149413125091347088] 936;
SciE false 419 [29063471769607348411; 2915400715931684676; 73838691755129360254; 89400170891515630200; 96075793145507544909; 79941932585979532362; 60932947976012953620; 66222447438952667031; 31541072488397502825; 50450412509670030216; 49815634917672723512; 15204631732981320437; 7312206758399853479; 95496026203846545595; 5624578854698733575; 2602083582845462911; 47473293252515791139; 72247313188408636049; 67493206575511278397; 85289082610236625397; 83841799404414005206] 939;
SciE false 419 [12439165917391945119; 92047791506418761041; 64402960071195366189; 9463273141568689726; 1120439466277229221; 39415147146799239851; 19679301733733544149; 64343207503871741489; 40299579025034131209; 31592776554138772932; 66121091744763925663; 20107582381716005147; 6729624492595137289; 42072299215246321514; 68407319749811057970; 11113691773457858126; 11118569512076758607; 80121850044638896229; 26087092414318827154; 28103727357181275670; 27484290145089194228] 942;
SciE false 419 [53364021785611444564; 45885025562536484868; 65288698705428120951; 21597441777329678924; 58806685310329313359; 78090981259768738961; 63424204437716904401; 97032360191609770989; 53885194017396422887; 96533011417255335881; 11659483585037241095; 13261528417561662080; 91870089073233138971; 61490163633406719297; 99467401726689438691; 77677737708134211361; 1698663206809294427; 46722736691500864823; 52913626457427768491; 86564990362307672625; 47907604722432643240] 944;
SciE false 419 [22946529367812921162; 71730560991890688493; 52074140443334092009; 2286899964251761937; 57286874683441604744; 70579121941700557753; 50272407908218268892; 84723914882392201525; 50170633427480461841; 82509194909419794428; 88013577941566013670; 90702457219551514694; 79504138301490249757; 79440770362364889298; 13770982742476458637; 46401427214497710885; 23730425178927996603; 81090776777345371874; 11752859376693940451; 50222945855792299228; 95600270030646036593] 947;
SciE false 419 [98899541575273690211; 31158717875048867407; 7439545310769936558; 88856538845925093950; 93906429885633316449; 68196015568729403917; 59674078084420738928; 17160073143110388574; 91235430072440790538; 26614630059599313988; 47338520928149518921; 60927590616267028334; 56662836079422976456; 9389720261792672874; 97352935620073536727; 46990151294485133915; 37278132521179665362; 42501247910358552777; 44654823913550883345; 97460896638464809676; 80037163832084417716] 949;
SciE false 419 [42724601960518234171; 28660566122021110719; 85613883574252612593; 43986024781439640586; 80567577710593592706; 26260678725691102492; 40179201732469759216; 97013151597823687864; 36213705791294421512; 53097520185746903643; 2050241040960592174; 13520719146227356240; 53278345186310725829; 3256359153094434681; 98856468187871767866; 26699745359217577851; 44104153249149615436; 56760539097274894799; 85690883930653981605; 46103107347816797780; 37776054775460468453] 952;
SciE false 419 [18499752648904395396; 16710025130835140941; 69770811587651381252; 95945948730363364374; 8685761148687025641; 81170873888224247379; 20997594350159405740; 94806694641857656845; 26880534607630484514; 92591226240428409277; 42787754370735936411; 40054471390316445252; 15069523465672544283; 97110003513289890217; 30104850725348475486; 9360989740541211209; 67397098356881783484; 3377313429120029448; 33804152741973174035; 16462645481604673438; 90357031717774382840] 955;
SciE false 419 [80288926496245076019; 36521509067824511686; 96805322290406994637; 84405417489777001383; 53696203385301691285; 46281592674893233625; 77129559479691820915; 71461054745662230708; 46661520197116302794; 77845921883459296264; 3698853968993964025; 47836405833973372394; 33401731841018842192; 43457415247678123543; 8655052148012383609; 64626695473948856649; 98503406868866940320; 70657540282380927805; 78710022900163575312; 61447881390164282724; 84149517655140821527] 957;
SciE false 419 [34925683025866608068; 42386856444503662583; 83110315196327042667; 46216356608052995601; 83857848472606235709; 17632492813578556627; 21051358373665942098; 33585558814363070358; 18297761285745591715; 72862976019304793874; 85609001476512374351; 8308836537778416991; 53529753350843196353; 70903975632739983741; 24264947684385386870; 19612612531167752642; 74348981987957119039; 50736030022835703595; 51738859961571155260; 98729828404721462985; 30605040179986257364] 960;
SciE false 419 [15227597799277841117; 83280669409803596886; 55036097425598590603; 1350331481111106082; 40162021934056318769; 20087766866720250689; 46378392250918350754; 87443303643062298676; 16777823920585077988; 5768257544416890129; 43725524643759395217; 7222652730471389808; 30938972460967633610; 21714133375874632911; 18179517190392028675; 40551099063589140152; 23616156146749303901; 22520909089956366767; 64558142943245023693; 79046205184458557861; 59343797518474008211] 963;
SciE false 419 [66544602382844165684; 92936525320841718394; 22507745749865840935; 16900948572455533580; 9508035851826113021; 40783541207567495512; 95673574136513192798; 80127236920182245214; 85319090532956790807; 81207285469101809865; 64080542693228557098; 60562992432159973462; 31203309654428558876; 64890762852572145821; 86444490122013165311; 52208302907884542465; 27202602361294458048; 35416372723109322774; 61119084661980753541; 86431916656083897855; 16332395155731415881] 965;
SciE false 419 [29146535843685744569; 99906198090528672656; 67058392638441238329; 60402615474735523708; 8164519703099837503; 37663191048914563034; 67505025471792778445; 87495729771039823404; 10569761653435074373; 82168791035466592721; 15067277699634108009; 18926590685286068376; 49267049628639708787; 97222154129426599869; 97662686673441766406; 44667236673653429599; 78914739834246972625; 17912371252721883375; 27970159081947570051; 33657179495364747260; 56153589078210360156] 968;
SciE false 419 [12795329235378041866; 22958820961742087296; 27838634368275703626; 69616748193408894907; 84784224149660828663; 98234140870473493172; 22234706182117029737; 73910625369486482474; 40240125365857997650; 10772099264569834204; 58514534910139373416; 3408773310840584017; 28028234786972832157; 91980525662818277342; 91973919449640935452; 43008916899733855594; 30743570787234420982; 45363530979944906801; 74778899836974983252; 53675501798465124047; 38651425605334348108] 971;
SciE false 419 [56299448635663384211; 41018812231665184103; 62489991220413095957; 46313692050999137594; 53050586258507646121; 52230219830083369957; 77832707201314930846; 5206751625740522887; 37056551609775189660; 47397236764107270500; 17463953604613243030; 54998602567698569676; 3324233062680461494; 84714312916400420308; 84685245578420115990; 69239234358828964614; 95271711463831452322; 79599536311757589927; 69027159282689926311; 16172207913246545808; 50066272663471131677] 973;
SciE false 419 [24828056848327552437; 23189296194164346189; 69858086128202175317; 24124338194490619679; 18795308540001871939; 59133526945066766151; 38024223875779884503; 10896177466951570593; 33041939259910858640; 26902181412971306290; 57701603539634440176; 47254383732355069227; 13065986780642083519; 22759011996132585356; 20146193300083271151; 89534502352243573395; 19414824755549670474; 35303395513485097158; 11140977243666257503; 22231943689741726701; 54879226244590769070] 976;
SciE false 419 [10974001126960778177; 25649668917820641015; 84677274068665361490; 22062957481964853898; 20107526374680827397; 29937018909719510638; 91006706953094708950; 37416110440392594202; 25204537152880599518; 99890764184533317380; 43504108764518422558; 86437609700940598; 39175166157043800915; 49859483302290602727; 44104617438636805849; 13774250039691659440; 67581352541952954349; 66404100816960412943; 88524311941700485816; 42426519110865843202; 8456618000109119929] 979;
SciE false 419 [48614824992436247325; 24628033305945439700; 20120324124187551401; 67738901645104302769; 3076341839836065370; 3620993770057432130; 37159711802209560650; 15753369250939192315; 97656099587261055869; 16516085337482595995; 32723201826816611931; 94382918610975166850; 87545986075704038055; 65877511029147370082; 56383455253161049911; 68019927675834051322; 19385391760851587769; 1170166619134629341; 41162701901733152166; 75949479661135685385; 23462817740483401285] 981;
SciE false 419 [21584982296641693812; 40934846787839775226; 88933423911139272822; 34476072330426310429; 44965895776887213024; 29607721233905499865; 88498912040181044928; 66994495947417001388; 29359308216743908805; 90933141889842272621; 92529101611106575697; 78306015863272974081; 78870417817612592896; 71249614896941432316; 65834254132403506160; 78600847888070318787; 5407113941818104969; 44119553978895775427; 58676239644369519562; 4121568969544244311; 4417491076774630170] 984;
SciE false 419 [96053171220055537465; 22160068205886999759; 65753736404569764059; 43418521870397081411; 5098236207148097958; 11754359490879474403; 18820158578805649932; 58125506966005656177; 90648921564510394186; 29652481409798113167; 56754502169424261855; 13461770591564734663; 95973359288376038390; 37060786291389373809; 12962430889195602415; 49773773101912918602; 39061657041090567114; 1332015206086200652; 76109266417444362051; 8340981914471887184; 14657835291647104258] 986;
SciE false 419 [42839714364144769709; 48883390419825601892; 80726166436438114770; 50764660754197098309; 32873813348388051689; 32042444332932245583; 82193790726147319869; 93123976106838522655; 34629419017771635807; 8825006708769958472; 73512507967563220787; 39003949683837871660; 12604118242615713122; 10529110685959660718; 87181244176581238677; 31199102803453161696; 66621499040326392932; 84994078781914445491; 13144732822180185474; 78320077933854461684; 12937394540074608499] 989;
SciE false 419 [19149352320772712060; 14150875517662044046; 8484596397087837302; 41691803357126102944; 26994594566729459105; 12622972616820713775; 96840624454587851981; 85926417319756819626; 93979350300943921205; 76844777998820171437; 31260091061500759691; 96334765508675528632; 7634040854449223765; 58106512476623968341; 33570016146931813688; 75845998953143563278; 40979810071025897640; 98392353215515757134; 53575695571514542907; 22809074836432944372; 80583015359413349999] 992;
SciE false 419 [85789098397061750029; 43395922319125957326; 46010991858953511114; 82779279039924941190; 32935783658947976790; 96550917323356797716; 33845997556553576878; 72950349592510551928; 69027489348228767001; 84264605434714368039; 16045207955523403419; 99579749478866368271; 70200503027932522469; 80317175895275378169; 18393672338254525325; 63790075310083163487; 27589549118196021431; 60797742405510591962; 72019116160385152224; 38184655267219590790; 17011908810171807996] 994;
SciE false 419 [38519305180280725763; 21584769121287554839; 58058935344670126490; 55767896288926298594; 45788166862867641579; 14351361878187202174; 63596852902892556018; 54954706967037237815; 98193342717354716383; 82734807840186751249; 58304298372030008135; 57811307516010999353; 99420025859541702588; 94162411976978644797; 96358758879876281871; 21141743814227340405; 78687707554070013622; 79198186340074255791; 26136583156012933348; 74744910214981596264; 78638347055767141790] 997;
SciE false 419 [17333687331126326593; 44713146104579399677; 81126520905101556920; 75095553330016834367; 50604675088290438710; 61458112845184240978; 58618583806301650208; 34729618135166757017; 19187004222809622372; 72230663528084038062; 31236934267413503661; 1015088382204949709; 29739011636793766165; 2373085389640390159; 8361441495944326842; 4513784716402303182; 60409468399331506130; 25639183853033415106; 6761462420205820006; 93635209596741718319; 15387256175095213806] 1000;
SciE false 419 [78174929863379732936; 44656288931653092546; 92880609282008021712; 58680945518375922997; 45227084648189878584; 87176088931780926813; 42369812966420442439; 64630577789602074147; 53533389044871396900; 97760292511659011661; 2878573546034901511; 15578048603744323188; 93122942481939885404; 25702615107278159617; 46710101146708914057; 62357169070974387353; 54446702480985092647; 45632719177180702128; 36494195515128248231; 28294795281305149619; 38396525349679414263] 1002;
SciE false 419 [35335068298247639287; 27384642597107197831; 21182035395467625814; 8923787374305917194; 84842642260981825120; 36203592197164978919; 66751155460822039982; 72013021160900137514; 68597091848281871399; 24187652215269873270; 78501115242807775483; 4241277968892434081; 39691570001836828202; 72417582028489728147; 9512965718312429154; 4585440420080423083; 80209909521405261876; 65025989068085677362; 2095376372837968200; 53989247467149927627; 96155229458055095247] 1005;
SciE false 419 [16006785939106180597; 13505243096489560617; 53895462034146834493; 78242475680560580489; 26633716944224766779; 52400227265315735450; 60938273423752384112; 17221898585887762294; 15274482607271687743; 85657006453517252591; 66561005204991922293; 81821298919908272638; 87280281210832083175; 83405164658905846850; 63409373470395530406; 78277204510296431656; 96235089013196583630; 12256773047842811844; 99549205496895599594; 84457129102618917215; 46658318944498958147] 1008;
SciE false 419 [72670808163542059910; 99313803658062605203; 62685397635026628601; 77220839589745035421; 26917074926780441179; 3897031784533438945; 76659761343835823869; 26187419579930440815; 45346151037013462357; 10882809298968326766; 16186963630663327213; 93468697096383557780; 48252476697177657618; 28659447551432544701; 87878555555595708046; 79378508476745799722; 60907304119912489680; 75645749637206365776; 27953392955906022160; 59435366125889884158; 21828768008025269987] 1010;
SciE false 419 [33065217714411637259; 50187780664418485367; 65021855923937116013; 80635482013333991116; 67747269091685100736; 46273149461962714720; 32380191411445299860; 51415275908868350571; 3132498721841125372; 48451678231030588678; 60365068451951813882; 34028257178854518790; 11954876897215834216; 32040048635901807839; 35484742777796047161; 29117221356919338873; 78712823374560182804; 74418816084928896428; 20718793794937240083; 7043091587279897291; 98932089443651497844] 1013;
SciE false 419 [15077739277771706590; 33285627982974829327; 64849966301315324902; 29569779798080299949; 20492754705808405935; 82700556154654997912; 46765367283619056736; 39445365814443967860; 39028419417159553169; 85293965273349948437; 44326471214090027130; 34716885273557660568; 29451423865130420402; 64210262177971224374; 74581042706674997505; 54877452938755218526; 44693047458799443358; 96334980134727576771; 26247769970491381477; 88011649763799633165; 14713032786305083017] 1016;
SciE false 419 [68905268499416699117; 82115319882194970027; 35364345997011034803; 49133893677226970767; 86651889005544415126; 72941541626773340459; 97717728486139089285; 32265321772008933121; 98359876736419157986; 22793421299209264359; 11571973448391423985; 68656165700158508797; 10593007063646021240; 7440898153328495392; 58835365169504738600; 35789959930111348665; 86247226886713456150; 46250859215705025844; 66952308765145613353; 91213239420564323564; 72238559833414229387] 1018;
SciE false 419 [31558612972732848195; 96208816506045296272; 52796870466631053939; 99903323304169952611; 68286565164539342128; 4207226065062189930; 66954719646651702892; 67777517371580091369; 86848823545279974357; 69239386955037843076; 47499963839363272185; 44444523890672597029; 7451597235149877727; 95407931354224450889; 80546597247633170278; 96391801647990997688; 96501229914114762916; 91182893520792901836; 85864157414436690916; 9175663654618460192; 64285260403703717059] 1021;
SciE false 419 [14485403354484377321; 94659846776274790989; 9033763544183653758; 45955625396614008248; 76243533410523558036; 77131116763863545178; 17732216317813131627; 73909880473555261938; 76963610007283508230; 18080878612362369972; 10202483402267741933; 11900036465818722036; 34520283130933793877; 13092240491589022958; 42070888136663625158; 4443836956427867939; 23494064530578676178; 86252948126043941943; 11811648253226441130; 48611629617469873228; 42306934525300006130] 1024;
SciE false 419 [66632855430628135680; 95435295170864038549; 81555312303244807288; 91395876824424437944; 30720253688408366969; 14803137113772307819; 61568195061940405487; 59985450178354204918; 34032606033504137858; 83172041616866901871; 66931423650431612892; 34740167742766121367; 18793302402295451834; 80224306261309505608; 73526085428652675727; 441649999568192520; 48072696840661910422; 76763561379802132938; 34333581964841629200; 23613496240361416850; 74611898816380028199] 1026;
SciE false 419 [30717746353519570548; 91995671073768321771; 46496998971795856160; 18933499216059665892; 32562036950356257172; 77724246209449033904; 84282937923554526929; 78353292532221288467; 35489031381445407552; 92142311185375641762; 83955386302848973543; 37215217329415181950; 27363712407458203295; 84383405186463682085; 62695525382608883510; 14903600649800936751; 94161513243545140704; 89588001796088783284; 57627781285791991061; 30885821766806613168; 19396085354351193000] 1029;
SciE false 419 [14191598815326041593; 60102000036080964658; 41681613524969685546; 747276637819565642; 25443661071064590813; 82308601748765453664; 3738717320682191441; 55999221149886235271; 91795932498227778289; 44969747767643546494; 43187388471916225777; 3793430406189814061; 2642035132245689922; 67985133196146221123; 55965332726765304181; 68885463500208032779; 39702619118517855005; 66189656829793017877; 47424034954035899870; 32469249656264655283; 70560991433710251166] 1032;
SciE false 419 [65707102514959572578; 37272260167054866368; 46985870620609644078; 1459890833104588923; 63804150759029055468; 88826096784050464; 49310261194758546374; 42276393923973269308; 98015167466794613480; 15209932164189620269; 21957608624972125347; 68563582780658839102; 55232622662297544342; 771166698157003802; 8119490524923358361; 21939696005963191768; 60823126518737668676; 21458111121941672772; 70573281837186216399; 60332625908505353963; 55697390338078462898] 1034;
SciE false 419 [30488095566941241676; 36494328717513457994; 97001443967962874852; 19877389346560529260; 56805125952189481737; 15241215308907799415; 52479961194367965517; 73216246780723596959; 36679037704592700654; 79057408524183983804; 91788330401987066161; 32613502410225701343; 58427936915306060574; 69157821347944849764; 16567443603564438279; 60580018946766920980; 63421930704694278265; 76356563560580936166; 53546002772454404409; 41594338421546484239; 9043589116868406785] 1037;
SciE false 419 [14176964438627677379; 50969862853643757967; 66105671445102736806; 27242986046150646106; 16414383567768109007; 77587165118642126728; 21903181955381103965; 74545554753036472586; 10555752532635605804; 47761694963745552469; 28681573636923985765; 1665278620754951124; 76668990665617318167; 23158386926794355140; 33703861275657463800; 1669708810246618255; 99491197777682839393; 58005802055670135317; 43898891289191298050; 37841367366019115171; 17705268939343809155] 1040;
SciE false 419 [66064654284004976588; 51519560897979912129; 30052428934178753517; 22952314975062010854; 72491027425799387976; 23556189452872310553; 50068827912075944480; 37382285149149962251; 25189806802081923048; 86569498531054274506; 87656133148065773664; 97760198372718072241; 41277496501776702659; 29918083078861694953; 97059993544563781308; 7780843055749241072; 93628981644002031574; 8307037579422830579; 26568833407631448914; 76340771925649076697; 68506553257342150662] 1042;
SciE false 419 [30852193550630324066; 83659634939356618964; 38334484312261477892; 54618731093353959069; 15653309807848314184; 90200740474491369028; 48482142634939466072; 33457527164653032371; 33463639776572258063; 82027955814002346194; 71135414180146716301; 54454012640059339736; 73976590866329720141; 89271744797828411543; 50427016985311285870; 87233653707034895581; 6124734427748948745; 9679386549590461880; 51707645201363886643; 19451140489278118817; 81892560371178784359] 1045;
SciE false 419 [14438826581694991663; 27952709151618897675; 33140538658138371653; 71161566151689652844; 36525748990073011038; 53413946542061960705; 33089642753151670121; 85258122713057619149; 78460983415435816773; 86789083320953098019; 12491373836308663229; 12284477915547770996; 79421044525442309026; 40579176565383696602; 35999843949125681787; 56825349934892331131; 93666375712186508012; 70529952905208336160; 8199177954238298949; 1503133748982159606; 73925718253711671080] 1048;
SciE false 419 [67718096668149510900; 78098205921092630097; 30429126306668963055; 90747745251424471840; 7305762763442421770; 72511409282270595708; 190424512281332871; 48860595524240233812; 48982012218393980669; 44040800775270029709; 69584543292287630544; 58614201423919045974; 96484698824324429333; 84316338091649537065; 6839268121399447583; 69510891194645033008; 78295302090154722579; 58785479125427096590; 78454144605377622070; 88049697282726328555; 60711618609907737365] 1050;
SciE false 419 [31827505434030270123; 36706156782913536145; 73301689364134412636; 27651440268169501764; 83433708498817938232; 24080362362667179982; 76089499520772226449; 59964479896392909891; 87021545742645170914; 63699176364376913963; 55704735347375186355; 95548674669241951608; 23347808447432481786; 90628678903075282420; 58214456017057740364; 33670118861483165514; 12798791982372719612; 40629175188950735397; 66873447964527482373; 31383357722881374421; 13534460746656636562] 1053;
SciE false 419 [14990755059428257228; 10588599844752275524; 64025095690507308351; 68623828366307835331; 23697276702943248907; 38541850672816241771; 88038154274283718657; 76143270031201060559; 7087148044785875500; 79402312067621526476; 83536930348613712773; 65503425769212959207; 47796817778740698921; 63286107763348458020; 9419008784034195711; 60258625983758570957; 15428231023697550937; 44336341513995796372; 30197393991292444197; 83081561487477127352; 35474731011675275821] 1056;
SciE false 419 [70756363880501374116; 65978191267230740476; 30198451659194495419; 95904469888972982763; 43851146037892134842; 85917535175692661163; 27540088174619152064; 63396234547269005838; 81451338771389332363; 74778912959173604970; 66294311245456724291; 65176169630685167459; 29600979915656098910; 10710428643004721854; 84457721460641403758; 76420714643340454917; 76821250431852440424; 73267531946060158877; 26531699638900336613; 76144970220892041103; 11440730375107301873] 1058;
SciE false 419 [33467760115477149957; 18007684469400140245; 29083867634798996333; 64062814257484220847; 10641592075922979780; 67238994138102628730; 22926461706594858926; 57186418940858239761; 75926483238867154208; 5270425829689115151; 12357209219101030589; 95128328235314084208; 24701263500105334784; 48066032748141233437; 34148502250883383977; 89546998026300035176; 10436451454266204320; 89855542610486455148; 94649493929199859218; 30916570914481935441; 77311465467425753786] 1061;
SciE false 419 [15863718294736169079; 70335642438495666476; 26785753258894724262; 14565773958047520681; 52844114643987492416; 3871283221460646018; 12867142848925963131; 19506362577966805647; 7389153055223031094; 61698181843272640581; 63257317169853888499; 63690827583538875914; 70908398899049928687; 84383299522618944649; 29986390066918724005; 52245277064466216673; 47346877989322180848; 10591527197370579740; 60063860122440733269; 47854454613464437399; 40045634631559807295] 1064;
SciE false 419 [75352661899996803128; 59094301582854415762; 27232327979749940245; 19187426300725723237; 26009544558940588976; 18388595301938068586; 11118928532398324873; 17655222245342326823; 60098477012309397699; 43066363755545042762; 75472256556805970373; 27531431021809660594; 86814894770487161267; 25820672732439987084; 17435352817863939026; 23165066056214529198; 99897670449280359028; 50309754187510253767; 85303335581593483030; 2308659413956077647; 15216764499909084649] 1066;
SciE false 419 [35867867064398478289; 20928887553438701902; 84162588118360971556; 71133214919145444260; 93580543210055720352; 66352971363722520646; 98892609981421602639; 63203885788782947568; 3406875057859273304; 92899589147639440355; 7124794121039641897; 67904961166381398443; 15723889910751888763; 21490640220641433852; 6699227941303234976; 48626571442758115898; 72351291133857450897; 56747442993254880793; 49804387736838497922; 29098921881043092960; 4443179901956724293] 1069;
SciE false 419 [17108972589718074143; 95283079362990260807; 65545554532458183432; 55130543516432376912; 46637919111196578608; 22050367340495642348; 61371774961138104459; 10448253521249465989; 95225079402598873366; 45113104023424013049; 36898526795735909185; 19290666476363927057; 38600295487428650940; 5351035385245963947; 43595531728001643083; 78394874578195621283; 69111565870850004078; 13968530307782578138; 49856692950471963508; 93280185737257555341; 94119396813233357488] 1072;
SciE false 419 [81780888978852394408; 9453119355093446660; 59307750665150116807; 59523998008546761641; 58929253351519645747; 29400755887569170426; 37357084314240139314; 51942651831572447431; 97175879544422614691; 63640637231966782375; 98374958083617645905; 22209385757019571334; 30509412429908951493; 45577949141475707668; 74386641659847853940; 48727500483775069736; 4353284862663019493; 50769574871200723502; 2314992303255985572; 69879287824091114534; 47890716767255448791] 1074;
SciE false 419 [39173045820870296921; 47728044171089760950; 42408412568606905950; 83811995046093898826; 32127112355377910312; 95382962070145632634; 23294043386521026731; 65480530227323202319; 91447246301778432437; 29383865234112088758; 9621604922052852388; 60138295777612374669; 13214008553926387765; 36531837638766863973; 32831201355067122037; 49340472731728258403; 56485223449215586337; 39018626363305146557; 46908881313259617089; 32272178867739643862; 1539653331515359971] 1077;
SciE false 419 [18803061994017742522; 30909461202123085256; 20356038032931314856; 40229757622125071436; 63421013930581396950; 21783821793669903664; 43181140825530092831; 19430654509115137113; 55894678224853647569; 90104255312373802603; 88618370362585369146; 52866381973253939841; 18342724105884666127; 37535282066608094707; 19758976650432218577; 99683426911229564033; 71112907255623481441; 94728940654386470347; 58516263030364616202; 87490645856515029053; 76739033599127372786] 1080;
SciE false 419 [90442728191225341532; 30674508382212040082; 33912542938399624459; 29505134162421593610; 21055077006096519330; 54780182827552236625; 91701287370799746518; 4461448188843809516; 21853402261546044811; 22401468052517990524; 69254361444035625594; 80287297291351450636; 9228502949305244072; 67544706740384935541; 62040677688578971360; 16477283443014203002; 15053083899548945735; 76646204547598922371; 88463225176053803935; 82830006569837289748; 62114751611802663101] 1082;
SciE false 419 [43593394988170614618; 57185113040226203319; 68745845696308618989; 38021474666287208120; 12148547116938522317; 32404048122880178053; 69200020512725477821; 69750418027022716186; 81733339890065193599; 997507601313671432; 90180602216025171536; 69498477294431399206; 59648138421565127643; 2956548648865538931; 6103606645895064195; 59942050619532845847; 3655586439582591844; 63943470591942680583; 24839274534857933497; 6924063166661573658; 83539310276888883615] 1085;
SciE false 419 [21055609779286406860; 77020409598429256203; 40904243471317062971; 87064372263816721522; 1867748257481306279; 26751155243351125999; 93323609907646405787; 87989451907051971918; 23277203166901488508; 32181796171434503302; 9157230870340157852; 22367764533210365816; 78610050857615956651; 58328012997402055303; 70248042009967316006; 47452010449234364544; 11865648250318391860; 96084696295908314721; 70897369600336381879; 8444322509497540077; 21749486863737330786] 1088;
SciE false 419 [10190915133174620920; 61277878245639760002; 44997653840117458478; 38539156175687293216; 65703990156620952239; 16547559137781944983; 96768627195300860401; 33386894723013154408; 42466166332780320438; 2775989346974299598; 21232099741244636400; 47625998034073817055; 32447264615086123019; 36630758290742594766; 99200052332824180947; 13366773057429432439; 35342973753154101660; 70504993007219624325; 30714326886562808829; 47687052094596809397; 37326751642048868100] 1091;
SciE false 419 [49425938395896911464; 97197709491352836011; 88238621124569673620; 16914907452083372100; 78664352259611618359; 95255661818242433172; 24327841897209172946; 46926439406613798880; 85960906713984554124; 43463548332825353051; 32975683745036486542; 30986090465258012718; 32369233383167696643; 92659177710101584619; 91120253814197277593; 59828849328532747330; 86413422702797393054; 41949216085015177977; 73964485399829622822; 96282202658794525577; 26034745463937010287] 1093;
SciE false 419 [24021006060405898971; 97638086812797478301; 77483969866540861379; 40220645021712518840; 98230875198171246522; 93694251643665822521; 71023331162043658051; 98406249551614306256; 9777000662996493304; 47523284489753121582; 94626182300087732459; 56259239966115394181; 10531447424219500568; 94832360367109370125; 27684443353699876910; 48876820773666915202; 79996923433559533024; 44787319017317376497; 18146739904317196691; 95993150492174139430; 54852886295473386999] 1096;
SciE false 419 [11698229951417672799; 35249748277832371932; 96434693325005399491; 76887454125573996675; 55838436221509397056; 67029100550465255568; 7288362275915261471; 31623843531636167146; 71961399322879292239; 27943839546509770210; 89482950780142725707; 80698249863498196966; 19828814895594896777; 7783359498782263251; 982323913251840055; 40803011716775787703; 76358501712143492582; 90611424361433562354; 12737462333402474788; 98448664289688805902; 67713355625895539469] 1099;
SciE false 419 [57087362162918243260; 84018771595821975032; 86601303426026349519; 83210776132801103776; 72491568760965857636; 55102010686270447172; 19567207906466475980; 2324356434384495675; 99171628695650946127; 68365936986967678629; 16676799807096501454; 9807459333871201195; 4764616690503096272; 13982794354057444664; 92793740696668979470; 39118697177865843994; 36629488355260243804; 58183750883795784288; 14158816187004076970; 24429481733681372805; 6441175454370232607] 1101;
SciE false 419 [27915720097667020954; 55085179310356945791; 7148037375326884915; 19790069528939739746; 81848377124112304384; 27344883225586248667; 20368364666262106754; 23136610296414018385; 55994926432173312656; 43730943186627194849; 66254955105670189211; 5395847614263017384; 37829897561656014077; 7637586439134090441; 14976139200671130961; 2129042919976397713; 24511819805722259220; 44051854182176138516; 90123661115444993638; 44946016567770191301; 67649734797187043745] 1104;
SciE false 419 [13678702847856840267; 72991737862074903437; 62502538313910173608; 44697134069180472475; 94105704790815029148; 29398992780537261846; 92980498686468432309; 57336939045242869008; 92437513951764923201; 65428162161447325476; 33464928001778392713; 41643965330988878518; 34536649805211446897; 76742417355175704316; 16338308208328854170; 90043231030788434879; 49010791704803907018; 1585408549266307873; 28160593946568046882; 84023548118207393737; 82148370050621651435] 1107;
SciE false 419 [67162430982977085714; 55389432902787775878; 73887463121298952417; 47462928279676119856; 87059010522901793118; 12349054552437955668; 42534248550560002640; 524370712142486833; 81868193503165772920; 12252276212706368088; 80312796488731908222; 87471869775155393525; 7574950543588204268; 3805269213912708192; 36221093302894673979; 12112264361171215258; 29642987270587183458; 45784355976897571657; 81268516277649110194; 74555621260398303252; 70348496948552308546] 1109;
SciE false 419 [33043916043624726171; 56051600988171585732; 33952631855679084589; 39751760713600650969; 58033033177267682214; 11675734839799474188; 86526850286875521298; 88257990390374103522; 23879151203557560276; 70028119896651533099; 69113895872456098845; 65436159929376453614; 33726875667445396499; 87472192453245052430; 64220777905024179597; 72759234065696237907; 8184349737128894261; 56125903140633605255; 64384110008603362215; 81481365660115965200; 33011460498687735805] 1112;
SciE false 419 [16290650609506990002; 57933439287168591766; 4338647504849788702; 57297618031805120928; 310285356392967331; 55956137276021140775; 11057737191429632000; 34911189262454433036; 46372421543353877216; 41323863109049205818; 14773150665120856730; 90760026845182591631; 86827349704050580474; 43823790879449810848; 30660843507176920541; 67970302394388245288; 19134884420404544870; 94970070248332367391; 3241366234241457572; 39670313270437170843; 76274650025853053752] 1115;
SciE false 419 [80475814010964530612; 74191190078612843324; 25432918673957956190; 71050233077117297384; 33532809660581258617; 90423318143544435429; 4625221725662382081; 72461274956524899200; 13079762424168153449; 8139883758703076741; 64979364285697032250; 68354532615202002661; 42927107538009867543; 72489526944482065590; 63464566925453987475; 89773293828277931723; 66526329036798451662; 49152147026761894911; 70012349197152800407; 63971347555959623968; 18796771127714085533] 1117;
SciE false 419 [39835527935427442653; 30724639088913357445; 50589294743609188314; 40169865373173062205; 24598740781987723015; 86259542481054495537; 37789484754202879130; 45368331103479825104; 6474482399963235957; 29529242460558022987; 11664785321420030964; 8835493644524991317; 40748918231314884434; 14382315837518622467; 36414960628099723800; 56937780444997576203; 21430532873215233572; 93330312778247137981; 29156112852590636201; 78165817040200013864; 25304401708218472339] 1120;
SciE false 419 [19758421855972011556; 4039420988101025292; 97092290192830157403; 94324253225093838853; 80200975427865910615; 86784733070603029786; 53943584438084628048; 70502692227325993251; 61611343270381765034; 81846504260436779401; 60985733519424335358; 18782404847684395693; 43411463442732182679; 33533628655409236743; 81261820471537463005; 8241139100718797796; 79429544305114755852; 17491835138010580438; 72061431974884955556; 8370245251939206876; 66950983247276362280] 1123;
SciE false 419 [98199356624180897433; 52075922310862095706; 6548682258365882297; 59791538528716379103; 39598847876493575760; 86320123360897058039; 10099614657280601402; 6398380369810186460; 53208376053797372223; 4777126174370793626; 99095591538946730; 19348552092991446596; 36754973310378947916; 29662134417383906616; 74871247743541191135; 25958461330572425050; 6764835196420336585; 30934420635912584780; 44145316915178229113; 73600118902137858177; 4746386738963520532] 1125;
SciE false 419 [48903279598842086921; 89333809310809323661; 62061243764666209384; 20376186187300756793; 49120226242493800728; 90987421433726734903; 47229608099325739498; 22786393424165472857; 34497771274791091367; 7779008834836655225; 74849349604586395471; 63635578942309740404; 99103976708568716062; 31571742939857185495; 14085881376283513185; 35927313742625067674; 93368887927817327619; 48405341476684467220; 65984367823758758098; 64052859213264653372; 16963700596003833225] 1128;
SciE false 419 [24402736519822201374; 2477570846093852507; 14868560638568438482; 71767716907463077639; 95210992895004406563; 72602723295429640716; 83267574441563544009; 61570410318658570955; 81514387866120754592; 17181725408583490957; 64849825452688611340; 34654153892212560462; 9052884377575789315; 9554299726988735562; 7528854806765473079; 49427729557569908769; 79191075075980846482; 12254265396865549143; 10926199544055620291; 22162376747419062032; 71264886597405912779] 1131;
SciE false 419 [12201368259911100687; 1238785423046926253; 57434280319284219241; 35883858453731538819; 97605496447502203281; 86301361647714820358; 41633787220781772004; 80785205159329285477; 90757193933060377296; 8590862704291745478; 82424912726344305670; 17327076946106280231; 4526442188787894657; 54777149863494367781; 3764427403382736539; 74713864778784954384; 89595537537990423241; 6127132698432774571; 55463099772027810145; 61081188373709531016; 35632443298702956390] 1134;
SciE false 419 [61128854982154614441; 93206314969465100530; 40745744399613938399; 20778130853195009488; 8003537201986038442; 13369821855051249995; 66585273976116677744; 8733877848239720244; 31693541604632490253; 39040222148501644848; 90948812758984971407; 56808655499992463957; 53677475365827352234; 31433520816106782582; 99859781290947510064; 13316462541712621468; 32873643065332020437; 71696934819148200603; 48870129857859328829; 51016753752284750391; 94518540926501811512] 1136;
SciE false 419 [30686685201041616449; 84989570114671480466; 26454363688606197076; 40230621688303894763; 1617775675396991297; 95111650571235727497; 82425807536010572227; 53184406679816339562; 64710157885525510107; 20198191518547825714; 15256304005010455646; 59917945060996216906; 68346092633645330821; 62579627449685604856; 66529610208055650052; 19484864195939735977; 10102568818796674259; 73391861279212396702; 95132805188645383072; 41410410383646944696; 75648307545103909379] 1139;
SciE false 419 [15435402656123933074; 27449753767679754674; 53106544935368917129; 43036002709216859065; 79713741164724686622; 86941160237331570931; 40560181190613317830; 44851756559947618800; 1149209416419331583; 92259690333829556334; 21873920914520259190; 23938726365681097104; 6178084594723601403; 27777552607191859242; 90264393934651991976; 25400886690557687196; 48181592115854727152; 64616106223443835541; 58451801009888627685; 42429436422974413182; 46851098695187266418] 1142;
SciE false 419 [77794429386864622694; 34346758989105963559; 63656986474259342332; 32901453654452969691; 61757255470212420579; 26183447596151117494; 28423313200691121865; 46052853062135998752; 5792015458753431182; 96988839282500963924; 46244561409182106318; 80651180883032729404; 47137546357406951072; 51998865140246970584; 22932545430646039560; 32020468920410743470; 26835224263907824849; 33665175366156931129; 58597077089838683534; 53844359571791042439; 64129537423743822745] 1144;
SciE false 419 [39286186840366634460; 64345113289498511597; 61646778169500967877; 82615234095498749694; 26687414012457272392; 52722641036056314334; 61353773166349016542; 5756690796378679369; 78924967806670482747; 39979363837662986781; 85353503511636963690; 99728846345931528349; 25804460910490510291; 62259426895824720145; 3580935442476249977; 96170336804807425452; 48551788253273451548; 91500913559909250220; 44091523930368535184; 94191401583754476432; 1885416398990630486] 1147;
SciE false 419 [19878810541225517037; 8558627324486246868; 39393269753767489746; 18003308452322367345; 29903831490303379830; 61877656364244495053; 31445009222172602370; 28112885542967611761; 11336033710175264270; 18429558101857471311; 61788872776888303627; 64462796251041353344; 72457057220708198207; 56103270009287308393; 38811953333892982488; 84862190423232557278; 95767204856156366483; 75099462261314080611; 54310311108766478803; 58060849201379765074; 60154020697889259026] 1150;
SciE false 419 [10078556944401337137; 80239224053514527162; 27572387765160117301; 31327677385327440244; 6661242565583813574; 12371971776671958992; 3042619675641509401; 73253232970284579162; 88447369091058858984; 98343785957641737954; 99026958497882369939; 21582637699277966145; 77535728010899056491; 23344357894708665355; 44777660340283742121; 84625130544578906540; 43153972862071277807; 26175427366486238870; 5235327732144604753; 41536850545099540892; 82298088493829854326] 1153;
SciE false 419 [51199069277558792660; 3615258191853797984; 36067729847013395890; 67144601117463396439; 85839112233165772956; 54849616625493551679; 51456507952258867760; 80126423489045662147; 45312634982579003643; 71586432664820028811; 35056949169242439291; 21639799512332068020; 53881498295367206975; 46589338105120020005; 67470514528641409978; 97895663166460845225; 39222182139322091260; 88971171021750093459; 86595464879294592147; 35007200769105667735; 54074289548655659977] 1155;
SciE false 419 [26060326262277425463; 95840166419653583174; 3958474492129818508; 35176601968788868787; 88792108126681378434; 88318454862376217804; 87291362547699763690; 24784349555924242033; 5364131206132712854; 65137494226393394664; 97743987127144401599; 22914657951777022622; 45425682632341908350; 51213973095506090182; 88842491895078477679; 30028892551728570219; 72464090708914944451; 79286326050070797571; 7177091623560947403; 118665191474784877; 39023813380265730928] 1158;
SciE false 419 [13290766393761486986; 61878484874023327418; 76018821990986207439; 25940067004082323081; 82283975144607503001; 79042411979811871080; 48518594899326879482; 2640018273521363436; 85735706915127683555; 87220122055460631279; 13849433434843644815; 60686475555406281537; 45167098142494373258; 76119126278708105993; 27309670866490023616; 44314735201381570812; 5956686261546621670; 41436026285536106761; 24660316728016083175; 53060519247652140287; 46902144823935522773] 1161;
SciE false 419 [67915816272121198501; 62199057706259203109; 86456180373939520014; 61553742390860670948; 11471112988944340339; 14906725216838661221; 27930019935560354153; 15490493377694167162; 34109462336302462970; 50694823703403825836; 39770604852051025007; 75107890088126098656; 37803871508146247352; 26968735284198421625; 62552418127764020680; 2448296879059826849; 62438666796503236735; 81738094319089505549; 97014218480162185026; 96139253355502436868; 96669960050310521373] 1163;
SciE false 419 [34772897931326053632; 83045917545604711992; 25065564351457034247; 48315516104120663525; 43473209850339502253; 64432243311021394545; 29500170207006901326; 41531132609379413587; 11864044716186861040; 89955749736142758828; 23562549684250124803; 96855239725120562512; 6555582212170878644; 36207992465509591872; 32026838081415178588; 17253528002078631347; 768597399809657208; 73849904291373826841; 58471279861843038733; 80423297718017247676; 91095019545758986943] 1166;
SciE false 419 [17838496638770265513; 64202555700895217252; 2458634512297458568; 95885859761413900388; 54801756653224164656; 11953740818553975401; 73633587316194540380; 45105471028611639170; 19186254939403859713; 98147299614641235278; 88487587988020314024; 43586737978986848568; 68963013674843660744; 55774700134806420630; 50029767935765986615; 73251059865066337881; 1494290466102354148; 8285000901474773169; 73295766569125478870; 44157151729342848058; 25531745026974360302] 1169;
SciE false 419 [91689872723279164740; 12001136302601416675; 40637381393208937044; 44853319173667447997; 13681029197572206332; 45442227807367433564; 92476638805239937555; 51842121087063825334; 78617350388535838929; 86477120019255949333; 46826202258424414085; 60035833211992401643; 6469890288696416227; 2681958692905002040; 77153007189837171204; 86510447706440976708; 41680652995766100321; 14584904633580334092; 42740240165304961394; 6967759888822239019; 43233169438648211950] 1171;
SciE false 419 [47220284452488769841; 16180585195839729587; 83428251417502602577; 89099459374438735718; 52545730036749686261; 21402747320794228285; 93625468984698567841; 9198692359837870047; 41487935450095957048; 88035716809916813906; 73615494163088573254; 8418454104176086846; 17831993498678654356; 91881208726846076050; 99733798702766143170; 50552880568817103004; 83465536292819541665; 39011225886293872057; 60011223685132055117; 94588396342743453095; 765082260903829154] 1174;
SciE false 419 [24365666777484205238; 3949181961053300467; 32248977731431342930; 19175321037210387630; 75913596698962838110; 78643817617529821795; 54310741996104461006; 346525257676340944; 46607774692249513837; 22226429873917075975; 87585594988153703799; 10743922317754860812; 62801308645318185648; 17010703703052575242; 31462640130627329875; 98085286373509625150; 49468216727094883499; 34129792557327637981; 72165791421528140440; 86007612512855621797; 2394782446626375844] 1177;
SciE false 419 [12597049723959334108; 6641727073864556341; 60572721487150004294; 90913640976237770405; 10247329493363787303; 27658853708262917868; 29578653611986006340; 10379153558218668268; 28896219515892998653; 84391064244815128279; 52781752608875464864; 13854607838279263040; 12868276569629501980; 10394533814478181400; 27666184947534329545; 88210093055104476202; 80575068047908054769; 15945102752138388836; 55009714164930048607; 92465935669146356469; 6138102524905836311] 1180;
SciE false 419 [65252717570109350679; 78404146242618401849; 51766697303437022247; 62932660256911650698; 43081166775624418230; 97272862208801914557; 77217425710087512841; 73764015431572701629; 73682417092325733026; 91145712788142364487; 95409478513974907996; 23766868602286582547; 86657672630680820256; 93843685158996979653; 43310838028227827047; 66928282025441186730; 53378852488163723704; 24595632256076854173; 32950319374337651789; 4973546766178126509; 73795371079012232092] 1182;
SciE false 419 [33866160418886753002; 80791751899918950559; 89966915900483814546; 51962050673337146712; 48559125556549073061; 87484615486368193655; 48375843943535419164; 86183524008986232145; 83341174470917055440; 96704624937045887169; 24817519348752977250; 4735004804586736342; 34275332095323345713; 35104872597519432440; 13178324936650242237; 74035778371203975913; 14703624441356972602; 50365133140903887315; 95801215755281241278; 51681270771646447658; 55399797590007348456] 1185;
SciE false 419 [17610403417821111561; 46011710987957854291; 14782796268251583564; 19020266350135316290; 49250745289405517992; 17492000052911460700; 85155438850638417965; 72815432484672840715; 83337410724876868829; 30286404967263861328; 905110061351548170; 2462202498385102898; 1823172689568139770; 94254533750710104868; 86852728967058125963; 62498604753026067474; 83645884709505625753; 30189869233270021404; 29816632192746245464; 82874260801256152782; 44807894746803821197] 1188;
SciE false 419 [91750201806847991235; 20721014247260420856; 88018368557590750369; 43095587684204997873; 46596382957802748739; 23133320275668710251; 43659836411826157601; 44368403245145500129; 49187909876608486600; 66792169879444717518; 92715623419641565965; 82828075016586386098; 67498729712650008206; 61066120841199646366; 80502717918372836270; 48617730763265811543; 89795059336524310174; 70289218705336811516; 39344653724207938871; 75774898774544555996; 55449131630847908436] 1190;
SciE false 419 [47893605343174651424; 77816369437069939687; 29145588387062371692; 84295896771155008889; 94923311903973034841; 87875593183899066751; 24990434606973254267; 95360306493965951067; 59476088955589630005; 54865512677070142544; 87997555425052897434; 16236255158658093543; 50834336910003304283; 85076515079106215403; 47222418753390620533; 19378455458424753625; 91473020973665689911; 19490972164185815611; 55737909244036544091; 5754497160312258230; 20144446711302608204] 1193;
SciE false 419 [25048355594480342695; 15897961215587578456; 45343142726433620395; 35686754011314069649; 44344892125777897222; 30258935235179211910; 90369997299447011982; 13973440296344192408; 35205994523773376492; 90194663130107684550; 97222721487302665358; 6691561447978182923; 25486358203931728140; 45395017386372550656; 1597325008023294538; 86034932204756146146; 35340389969227155823; 55493778441869181564; 84450926534631112559; 62309602014843311054; 39535545630011264091] 1196;
SciE false 419 [13125338331507699572; 26330531676967891111; 18159806788651217087; 16699859101928572496; 30836723473907618144; 48655682063233907041; 31353878584910234278; 64122082715284356821; 97647941130457249282; 28062003480176426704; 70944706059346596647; 62706378198740567851; 78554851698860225545; 59786989110459216543; 75236998304204206338; 36282304475292220580; 68918364343875029651; 54278739903539451139; 97852285504146702981; 24250231455777894992; 50316625910125902383] 1199;
SciE false 419 [68908026240415422754; 38235291304081428333; 70338985640418889707; 62674260285125005605; 61892798238014995258; 55442330831978011966; 89607862570778729962; 86640934255242873315; 37651690934900558731; 97325518270926240199; 72459706811569632400; 4208485543387981221; 87412971419016184114; 38881692829910886854; 69994241097072083276; 40482098495284158048; 61821412805343905670; 59963384493582118484; 88724498896770190651; 52313715142833948710; 64162286028160987513] 1201;
SciE false 419 [36245621802458512368; 80511763225946831303; 52798306446860335986; 21166660909975752948; 55555611873195887505; 99962666017620434294; 58733735712229611960; 46773131418257751363; 88804789431757693893; 1793222610507202345; 5513805782885626642; 42213663395822078122; 70579222966402512844; 16851770428533126485; 57216970817059915803; 38893583808519467133; 57318063135610894382; 73540740243624194323; 5069086419701120282; 70117014165130657021; 79749362450812679432] 1204;
SciE false 419 [19101442689895636018; 36029699220073980096; 95924707497495397064; 73354830299557221803; 88877807457174232715; 66180324991285968873; 24752678720345005503; 16649440257421834968; 76900124030536304681; 62045028315737295635; 84405775647580725240; 55646600609598235170; 66595250503294124268; 87680883015836957657; 89653343620590575628; 38596918667089759179; 39306619272466941339; 70155970108389950408; 24771408543182490388; 98351666465023856250; 48727914011578282061] 1207;
SciE false 419 [10085561740264895817; 69423681188199061491; 19448245558677569650; 17931350398166213112; 45327482337387994873; 86943211595398991565; 7469414364342162905; 67190904455918728863; 51003265488123168871; 89559774950709292095; 72566249541922622927; 1381405121867868170; 11162292265739297613; 96695506232361913643; 36936965431671823931; 78779173056223392846; 71953894975862545027; 36242352217229893815; 55479303710800354925; 38329679893532596100; 25728338598113332928] 1210;
SciE false 419 [53352621606001298875; 60251273485573035288; 41881219005404343449; 44856843606299267364; 87782381564782492882; 76929589339660665379; 24513201987370041771; 439884571810075687; 96807274432171563332; 32771209489252155186; 38875460076770675283; 90307633094681022619; 89048526085760884377; 88519227969194523173; 42396547133543948599; 15741825467421748159; 14636104422312863194; 74722043229146138284; 28485516630133877555; 27764006636787433370; 36102911184019531189] 1212;
SciE false 419 [28276889451180688404; 6933174947353708702; 86197046072864302028; 20774127111338611703; 38524662229334721227; 86772682350020152650; 99991997053306122138; 63233138823059340114; 62307855449050928566; 13368741029303642248; 78603993840688457900; 46863045540180941988; 54195718825453268720; 27915190823673097281; 91470169980778292757; 55343167497733526524; 34757135343825817493; 21602682911447453290; 67097323813970955104; 29714923517497339686; 29134542927530351530] 1215;
SciE false 419 [15015028298576945542; 56081515897044819321; 21970631464690944376; 97831061496120802814; 49756595643776736971; 99776294327860701057; 68095750435305550855; 61376796715044509600; 86485471243446043068; 61698801486560234034; 10538720729405571145; 14884277181836080195; 91577926696315685690; 46822966327370414656; 69670660259793273454; 26087221941296502584; 42856038867571509088; 89771024625978597697; 34628678945218577160; 38178624387791087373; 42070442294518616663] 1218;
SciE false 419 [79879950548429350286; 42353664572278438788; 88883759392155824085; 52461247159362670973; 12705088824892240691; 2809885824218929626; 86269392315825530551; 86524558524036791076; 60102707015132949125; 4237623908500445061; 44065994280437638492; 19184354607367946642; 27194570024399447873; 29098180861610605973; 62647912582100214776; 66784020727697393749; 15994126775480428352; 93581851010206139749; 88224571988562830493; 23110281743048584826; 59814753006839040645] 1220;
SciE false 419 [42576013642312843702; 66374503217024407874; 47775043756019054237; 58461844735940303628; 67671812343667564288; 31797669144308689491; 11781586104335007784; 14417589693311609643; 82834742839065861883; 64758653543230737217; 74787174951473261316; 33825261005727115560; 33094705823004905716; 46409330399238452983; 94291337406259414475; 96395883047862710868; 30224869571331068312; 11479126588439872486; 68723696869903988652; 89217780169044895712; 57681263352645208664] 1223;
SciE false 419 [22735591284995058537; 22243984717891033804; 97111873365714174962; 87018625088992122137; 71336747791518479329; 96179955323060840188; 25691366979714894156; 73298992896228399549; 80433752676061170245; 86781120992085213674; 27736351424086721542; 92462689377058279709; 21672572909484619652; 59182582433193333893; 42551574174942527330; 16475401547558687603; 67340080351090790478; 66929853598226891907; 89098454128528729940; 64442294610269974310; 51601794630312541426] 1226;
SciE false 419 [12163541337472356317; 41400531824071703085; 65954852250657083605; 13554964422610785343; 67665160068462386441; 52956276097837549500; 71744881334147468373; 85214961199482193759; 14532057681692726081; 53927899730765589315; 73838948011886396025; 46467538816726179644; 43094826506574271514; 13662681601758433632; 98265092183594252121; 63814339827943897867; 96526942987833572906; 8807471675051387170; 72167672958762870518; 24476627616494436256; 12606960127217209663] 1229;
SciE false 419 [65196581568851829861; 33906850577024328539; 13518008063521968123; 52654609305193809442; 10685257966958391326; 59845639884409265323; 84552563951030430483; 84752192029224558549; 1891829173873011797; 5053542556903558732; 35776761343711082696; 49066008057652322894; 14988270075238095315; 77231973385425204272; 78700894104065191371; 98044861477779292572; 29384414414787950776; 63208048178275435235; 6818727058968985977; 79194724024410178332; 83573306281884243794] 1231;
SciE false 419 [35010564302473432635; 53907978759862064425; 51559170330111296882; 33375525196889075670; 41137983528256656142; 38337108617927775478; 90504726841703341169; 82611927119693587940; 82315912266369807335; 1613752353057211039; 27612120841572851408; 1548446326959297394; 15848701030402857184; 56973569707973334694; 48662380133883007766; 75350090613567480111; 32179430540741129567; 5142721871733908721; 23161656430666345470; 7427566801108265764; 73278865473371838918] 1234;
SciE false 419 [18835683594730706757; 92002492572805790660; 92738833637599877722; 69556032555926322710; 68132235138202081004; 60225364436445143207; 65091543040836397549; 36645216790395150312; 16285960799306956346; 23868198765944779539; 13055321012766194057; 51233064123904101998; 5726601154356737165; 29851780502889654065; 63380360512029058178; 51338348750099304299; 89112533630918727707; 7366784366992842892; 2260971159698493862; 89996030938996246981; 42624029624674049338] 1237;
SciE false 419 [10152433457559850942; 51889343496742321166; 23986231330666334092; 53290701547644287941; 5723274739490921661; 48061471431243932188; 92384341699010818279; 10851771850022986018; 25578132870826449470; 62264959134844236171; 59136818025880978596; 99914621562784310976; 95286638022198281332; 9590109691057523541; 37662014315983662358; 21871369976303525017; 64131655627065194234; 11270696773809142318; 80018663455077488192; 10307860676118977122; 98874351967699312593] 1240;
SciE false 419 [54823140670823195089; 60202454882408534297; 69525649185598204099; 67769788357279154881; 70905683593250976971; 99531945728717233820; 18875445174658418707; 18599567990124124498; 58121917502462827141; 36230779328158875326; 59338817339757284423; 79538956439035279275; 54547845319870719193; 31786592331710627123; 43374877306311776734; 38105397872039035095; 26310940386152048864; 20861762578569368521; 52100782657418436237; 35662447651042476464; 13921500625576288002] 1242;
SciE false 419 [29659319102915348543; 47469528091383017055; 5313376209408628417; 92563455501288022791; 459974823948778541; 84946782639236023496; 72211615839490204520; 58762366282657151353; 73243957368832389483; 47700851616533951551; 68702300180808690873; 27330575433518086088; 7010384318050059083; 58496546451455449273; 77765808622714671213; 30015020248773117986; 53734218748908258435; 53686213555006028370; 14286523417663374004; 40993384179213979767; 9931531838436771809] 1245;
SciE false 419 [16075350953780118910; 56328484225529595243; 83879849905499476602; 51569392881698108352; 72449306354580237969; 68241156190465924735; 22338695785003690850; 15849202525200176033; 72298224893907155100; 4453861576161401741; 1436646697998310453; 31413171884966802659; 73399628300383132023; 30305128176688853506; 38749068273511351797; 60868140974835029948; 70323946561908276072; 6097927746813267376; 61743295692373548710; 39018414225133977033; 76782890256432730321] 1248;
SciE false 419 [87289155679026045684; 35863669344625702174; 4467584986862157951; 66021803347620728355; 29399733505370692175; 37549478114229971312; 26299118112570041316; 36061169711836955863; 11579361173915852193; 24184468358556411453; 70800991570130825761; 49573523335369738442; 35559981671080406886; 53556845999420474539; 68407440725166640261; 1514005493354212621; 45859029831161939071; 29111747665196041855; 3266095609588369497; 41869989242477495293; 35931094092429725641] 1250;
SciE false 419 [47485300689390168852; 29109836123476381982; 68030366232853013925; 70315861021105676225; 27993455026921656543; 40426916094141104393; 87106720253238102476; 10017276323239303989; 53499172478610223593; 12356350787054687830; 81715739414151169214; 25367996694441137712; 64144630029067741346; 27534924223684738149; 58813647754490652301; 99223618988384691666; 7347312228152094854; 78236790729866646769; 13776756011616073006; 59577274147907757439; 58746515186281770749] 1253;
SciE false 419 [25879488875717642024; 49864860687294628180; 56076549596904892589; 50822144256502593542; 77756432989672302816; 15532669271306901894; 65973162538014765849; 47459415596165420674; 29657049000842571858; 25234211178944804867; 79535077980712387221; 76825558198470420053; 38958823365841919033; 72006533701908182291; 52553438026197405504; 58576872348669656958; 1004285164342891695; 85639050947777322489; 18008332026330759788; 59469614410609727804; 57516850776523565058] 1256;
SciE false 419 [14130200926141832545; 37626213935262866986; 58617796079910071353; 87148890764050416074; 35655012412361077337; 62080837422133568434; 48421346745756062153; 81312840915506319688; 16592748754460044234; 60577879303703863457; 81626152577468963423; 8546754776364849349; 15071517557749687792; 41115567401241867531; 17294177162303783405; 50382972302373632699; 7348339699731218865; 93758921817486418079; 9232549286376594844; 57270409468192911381; 29804200523981866522] 1259;
SciE false 419 [77292199065995824023; 20815390225887882416; 62639344557108090305; 67704432479355775926; 73032917895615093036; 78582180699070619336; 62864766699285659981; 35781239807819568694; 26762335686896441963; 29360999791260133114; 25495054598755229924; 27750748626715725939; 85441201040890792224; 48902153684793015395; 51599149077801695228; 10594858493983770863; 93195418157529767196; 67861302341650706892; 63502044596479973799; 81269139791015225255; 70028976866180809873] 1261;
SciE false 419 [42356125088165711564; 71806833843786559564; 31126360817295233487; 51102028998686965207; 84822039006797070984; 15863035023090699396; 47249892151208541669; 78408119414685123644; 45865759956419250195; 88489827885610552946; 61171289920117865998; 50407410247440217815; 4021778170408154139; 1998380219266572436; 74276333694635328985; 205982454703106433; 43471089150326312423; 77987993683224587377; 16399120438871025642; 29735488605476343440; 12375879322667083811] 1264;
SciE false 419 [23253512673402975649; 3021951780238821200; 80688372088695083184; 64355013920279143899; 10867299414731591970; 30308806227676793968; 66340190791013489376; 71146057558662132880; 80780302216074168357; 54080915509200193567; 68983038166144708433; 17873668225844679580; 45707956215554076622; 32197110740377348267; 77177707198354795612; 76613084367632005431; 95565627943529145520; 65515408532090298470; 6303117120940193077; 62124783244406512548; 62794357748144229012] 1267;
SciE false 419 [12789431970371636606; 96662073479131351660; 44378604648782295751; 55395257656153529144; 50977014678102375583; 66669843425222236682; 76487104935057419157; 19130331657264173084; 44429166218840792596; 64744503530060106462; 22940670991379589638; 24830517524214573769; 25139375918554742142; 27708410907207541547; 27447738959095137587; 2137196402197602987; 57561095368941030036; 36033474692649664158; 53466714416517106192; 69168630784423581901; 74536896761479325957] 1270;
SciE false 419 [70469770156747717704; 38608024870013747649; 4526111614790449591; 6227869685405945586; 24883350876344089466; 350837272974524122; 3443948192166379556; 12408127431525593695; 28804705865812767207; 52742214450631186606; 88403097162501538906; 74816151558422301468; 57517961311236629203; 94673344098713553925; 48237041664614208104; 48775952176108792461; 54161635482865075500; 34544445556499649513; 52601596435009255121; 73119155622173936278; 61698301155751086021] 1272;
SciE false 419 [38899313126524740172; 82111629728247588702; 27298413611364328174; 26637784066344081963; 60935609683741937385; 23393662174681937315; 36301059402075841514; 98049286342202127719; 79900197637928647498; 55513702376748415006; 99998509633700849476; 52498515660249110410; 65349914643802619320; 57859685942489881766; 86626846998867042873; 67724325601212053438; 77097222786541521676; 19068533947187806531; 46636081232125108827; 19561773903440012825; 79657462237974599484] 1275;
SciE false 419 [21511320158968181315; 57007731239720916552; 35696022727084473480; 36930694588688277325; 87597392155109291374; 3436695182599111335; 39574485849347940357; 78421255347237776629; 4884809293774542066; 70099077414341873498; 87099175827436569760; 51831679160117758057; 9138502798022848484; 27996406326196904617; 7704646390373474709; 14351552057470265551; 64034764200957461486; 93344899272794857011; 90089752921365185181; 43917660968602327092; 66550576617599953514] 1278;
SciE false 419 [11917271368068372448; 82582283106805387770; 575596590804798308; 12459604802133305638; 53528955253930547421; 21503929131159907679; 80924265160538758958; 21245375462369728252; 49306184348751096304; 95234888887545397918; 37452943408399859647; 32714750254705237963; 62862730550104658060; 29110009104713085157; 86068374100266904988; 86550759839838527115; 60875259367330433663; 76113074197128350784; 59309723118436312590; 51730384176605689209; 33669019446150374247] 1281;
SciE false 419 [66140856092779467090; 98331671242769902123; 53194561078966630610; 9150806651839846293; 87085701659314538187; 74346806677937487622; 94129671640990112218; 7911833816151991801; 33649323135568584492; 48553633325876958446; 97863835916619221042; 66566863913614070698; 13888154553080852234; 61560550531157622626; 12679476256481322688; 20356717111103825491; 62857689488683906833; 87427561794062346854; 49168963307321534877; 37103632180161575111; 81863057926134577071] 1283;
SciE false 419 [36774315987585383702; 58672409210980065580; 68376175959905446619; 21087848498422954539; 39219650122578883232; 38536824512933243118; 35536097432390502393; 25198979601780507441; 54309023663376132977; 82195820129187588896; 52012292769640286899; 72211176335969423308; 16521813931512953842; 44627666095323638180; 12649788798603615414; 64118334713773726973; 34548875355708252199; 63409724357498664851; 9737943598870773391; 81829619492169835762; 17115860206930824851] 1286;
SciE false 419 [20483294005085058722; 34080531930515896528; 44085530009667333766; 90045931613621585678; 44145345118276437960; 43865011253703816416; 92393606269841509833; 4135831638191742644; 93950126180500506068; 64683071811957487015; 36170847072689639803; 14521625219134968782; 64802650359852715290; 24257610015095266466; 33045932360822213785; 95513912435571965924; 15343723573129496475; 19619216467126756322; 6124034584571020779; 24279098057138598519; 52933534135260469442] 1289;
SciE false 419 [11429678054837462767; 6616936817227870262; 86999725745394372241; 93045629840400844808; 57033102575998252381; 92476676279566729560; 64355632298571562486; 83707794054110992395; 87624170408719282386; 30493154071072277754; 57183332666560819010; 15503066872277312580; 71759878900797815131; 95535746388423158688; 21239630257338795292; 56296763139049156985; 67761797753806259033; 15947522788656730027; 71017211298190629594; 81747736715883337973; 89736912047475341949] 1292;
SciE false 419 [63891900326541416867; 89988676808303794769; 44328466916754540832; 39125070807840722479; 90815043399830230814; 95944620402778018243; 99747984549015034301; 41926568762480447492; 94819112584740788539; 44456731257294032648; 5654829606074978266; 76662143816030177326; 21137723055459786587; 63044822311285457067; 10729533138523865685; 42698905947284787549; 93788449443776987995; 36146652388591120854; 89986211156885619435; 2969848241787859274; 8629338345387161493] 1294;
SciE false 419 [35779464182863193446; 2393659012650125070; 88823941473382542866; 13910039652390804588; 74856424303904929256; 37728987425555690216; 63858871347448419208; 79478878506989050596; 5098703047454841582; 8895769504084658282; 91166704579401987829; 38930800536976899302; 67837124911057480489; 7305100494319855957; 58008538557573364783; 83911387330479481027; 96521531688515113277; 40242125337611027678; 74392278247855946883; 61663115015401201193; 48832429473416810436] 1297;
SciE false 419 [20072279406586251523; 21942842706096720164; 76830231166567606547; 90403532244991241374; 28794454034490665312; 82765961945736742211; 53424826825918563176; 13387650842420857384; 38460372409622166127; 55190526691791493296; 71344521269044515172; 28740179101244040508; 80256627075103246554; 36998161377313439192; 20242790130798657643; 73374288292398988856; 68848579277256978548; 62275832314399786527; 77534068097047186201; 70893007523640073869; 54694992934586830655] 1300;
SciE false 419 [11280621026501473356; 4931877600826356732; 59978589915610994879; 92206785121685077652; 34982483167383753905; 80914470613504049122; 88224752676166232504; 98723859773440521850; 2414729294207657363; 68417076000786819232; 75295620953203017526; 82551980654899150765; 94704224416208024563; 55592966694050152826; 1776448053508845595; 77836350020328231737; 45892901553818421944; 32599017760692680028; 60974146270540518645; 36041870228285721514; 68538586029237798828] 1303;
SciE false 419 [63509896379203294994; 55766470892652388404; 53679461224889901173; 96124200235086987182; 72951380232370534489; 70548469554027796561; 82705357566815889003; 7815330524470138015; 63594925926389110957; 54188137884429792280; 39914345966532988676; 2767651087082218812; 28184783463251178292; 81988402487502360410; 48001402541254800704; 23218650614447944681; 89377035747997715546; 55532469992699788561; 7284443503143119973; 37915729385248612127; 67872239344608807402] 1305;
SciE false 419 [35819581557870658376; 93052289583455947060; 15875216130837904262; 11414048932589060771; 5944578451056981452; 19389336828471677260; 87045821667684161397; 73607846415801157840; 81867538222483458580; 5362109766818402846; 14511691125124605613; 27960955213114371410; 12696217873273664557; 15041459002951331271; 51072791033267707597; 18695318946548640800; 58808648161870711568; 25720313075882680748; 44508426135772719664; 98584471373280217240; 1079942990359367374] 1308;
SciE false 419 [20238063580196921982; 96574543614652610088; 98969497113923415908; 9448937646912819335; 64858686824847194520; 48954975308086497652; 39180889242241551189; 72088433224927654180; 6255159095703154097; 73029592018252397608; 7199105485695402171; 50297939695409619846; 72173363098399620474; 78998424336667502168; 40356126933796254792; 41062855204799982052; 33226886211456952036; 6531976887873714622; 87147260766711586610; 71700226325903322740; 60610167789553042567] 1311;
SciE false 419 [11454743986391457842; 35861191685893377310; 36816735366480653403; 98148098708152655743; 97710016742863512098; 59708516024376957671; 25376383311108717973; 38202053205309052265; 91540420048167985219; 31534749082330857046; 16874693704903597629; 7068633867601844833; 24450123513694185188; 73113108174553806227; 31641567844528680212; 50441576045916789841; 62006417595684634852; 41297098918536522476; 54525349593958758021; 66582328100461280671; 18305354968887022093] 1314;
SciE false 419 [64948398402839565966; 17332956859015449349; 78750889527945304800; 57499719675225558068; 35015794932036113599; 4547285858217349996; 884093373986430909; 7605641674102326347; 74034181673112476193; 51802027296815959451; 77679513306803398556; 83079154029302460204; 49632200322646030020; 10551323349720081308; 88407689678477616804; 90003736180348198401; 98576387767531879613; 18154550868102082442; 1158732197746157982; 84521800329615461405; 60791362673589415266] 1316;
SciE false 419 [36890690292812873468; 78645119495920775230; 67930505251872933126; 72659840775528116982; 82288971521396512524; 25782858367467454797; 73302165036424292756; 35520004470890121365; 51651415190327886477; 91823551504591464968; 60921963558264330380; 27988959488643797396; 15391089783262945051; 41993151662641006183; 44615567737375286345; 18322122150437776692; 32791388251958107620; 28711784893081982827; 6258159888319817734; 25608382587221582078; 38529493998598787871] 1319;
SciE false 419 [20990802776610525003; 73949072993178921106; 25652457488315698949; 10743449401275498563; 22622424795674615626; 30270446411088981779; 91008931905725422578; 36610882543936479056; 97889655243296567405; 93547600806112543567; 13864597264652403986; 37925717949038320718; 41157530086676615734; 25794103296042732518; 38086258042566537930; 40925287503599094937; 93458299915364163235; 94337005604163648228; 59860892976453976290; 79171169692129080202; 60123282085202710299] 1322;
SciE false 419 [11964757582667999252; 13150971606111985030; 56621900768339948400; 99123766158727034181; 3894782133534530906; 99254154454320719614; 54875091186263490869; 66868203050043793062; 47797103488679043421; 38322132459484149833; 26902820440851870272; 23617659230951842809; 49459792149405670968; 52702638878744357535; 47709167084262926620; 33327413877051484114; 62271230951757573044; 48772093194373279490; 30120708996578766485; 75127566724513575715; 48270270788565544870] 1325;
SciE false 419 [68318765797034275729; 67092047870899434524; 53311053387221105369; 65996704766331365173; 73239205982482171478; 92741221934171308999; 7336770673564532865; 80817439415750058386; 74921460920357337936; 9819376343654495547; 96615104717264179254; 46856834208735022442; 21415413173106381230; 28932067997630281527; 57419344051141311002; 10299533237963974294; 49568728734535742084; 2488652139871425889; 61989248370464756633; 63978405996972517335; 40623246202709261209] 1327;
SciE false 419 [39078334035903605717; 37176651382154476548; 3293922537490472271; 44550115126341540879; 37492825821979802085; 94647978946345988747; 46996632825278912799; 24227575345809033397; 22055075646444397299; 44816683268570371453; 43663839898275110533; 55602109167396432836; 94649616335016850063; 72549142894644521033; 77243864797252829893; 20291333012115393296; 45153312836154444472; 6223509024006455608; 86257850067905840794; 44195648230268279915; 85236496827949697411] 1330;
SciE false 419 [22391885402572766076; 5402221241974515062; 2287417613982040611; 53827215967393702923; 88183389195994426595; 24733291936256251552; 30029070608884817033; 96582400673148576136; 60737558345412639652; 58379959512890822842; 81919380261711638335; 72760008552918156015; 57034230159964655086; 51470658878631310552; 35160734528825871528; 80526933815942120358; 86672848255116496682; 49166070670755699063; 87825748088910046775; 21524106435943724391; 78340512682415176617] 1333;
SciE false 419 [12852942221076767727; 65500874992893371645; 60112977710425691311; 2296821965283985478; 30817265398500800865; 67196909571411088391; 2036686529499884977; 49638297986387282702; 41263358490266855160; 58310096760399332311; 77821724270222480404; 70764244909375021552; 93737648111819712019; 65944158196334372257; 4982261619546050257; 53422460010350777085; 98950214898436869095; 75021324565013771262; 66611979403034366848; 97354837094231697800; 88367454279706311378] 1336;
SciE false 419 [73904417771191414434; 1630031209136886962; 20649621834947725038; 38206726300382916500; 27199276041379604977; 61382230035613758248; 36710947544624338620; 60420213421726875538; 87264311319034417173; 35283056372296160792; 72474914553779262327; 6894408228906373929; 38991476642963344113; 4178909628922640478; 3648004312389788980; 82179145059516968244; 43963735666011997300; 56372616248829184760; 33018881567447609381; 59790313291832262355; 8112862108311290423] 1338;
SciE false 419 [42568944636206254713; 99338897976462846890; 23094182176929889622; 10807074349020559904; 15666782999834652467; 10556164500513524751; 5945505785703619045; 46802042930914680310; 39064243319763824291; 85123040470442588616; 60945550782976855100; 39171179139850071383; 32859090546346886209; 11207051946259440915; 34901250483936518452; 95335187554281773708; 79723111743622910445; 12470626959325610421; 95018875782849823003; 80039220456095383116; 52673008574387303284] 1341;
SciE false 419 [24562281055091008969; 97418544132419062655; 66325343116088546311; 95635681899384863064; 69839733790904594473; 51990906916796303781; 36130556838350988189; 23504778771137770539; 9540068395503726616; 39815994351445373631; 78365582801777645392; 92601770363693491188; 18059695245242153342; 65766468972991697408; 15638021529231371147; 35408403218820583429; 97600235476070419326; 83695551755530877213; 46525891326704347873; 19282630203167036058; 23592325947421473995] 1344;
SciE false 419 [14196998449842603184; 64507918508538218214; 97336048321099179768; 31077424137844450851; 39567366131142855605; 69450744197908263585; 62683461852566871173; 37785762129717631371; 59714159532601153984; 27813644735135425959; 17095306859427479037; 11123823270214837906; 76838503851749964632; 5613019066389201101; 91438776443895732523; 17066057060478297222; 52612936105168702370; 91176028914696847029; 38291965186835113070; 70545360257430546841; 66036364397609611969] 1347;
SciE false 419 [82200621024588672439; 9500848164436283464; 69575719779164250858; 51938285758119370429; 58095049899317133956; 97119808905888846160; 77937244126362184093; 85779562731065085641; 54744983693760681568; 97041003016434116303; 59981826716085103624; 87406936734543911480; 18894937301632295219; 60499380394393474380; 8430515610156291309; 15812470380169340918; 42628900048926786727; 57909207416094744300; 12710478431775304679; 38457635890522866213; 21350549862159653300] 1349;
SciE false 419 [47676360194261430014; 67510491935373044409; 52353917471915265497; 94124205739709234849; 15695128941603937695; 4329489165415530773; 25203601593290066774; 43752146384017749672; 9752090542381195310; 283781749531787456; 8789459495329360102; 42696023306035468658; 50959063634946731227; 37089640628748215140; 44889699053890648959; 31171232820498217732; 68724762028377536301; 99587340301334951694; 7372077490429676714; 4305428816503262403; 66383318920052598914] 1352;
SciE false 419 [27699965272865890838; 52623595814451738801; 93317626051182769254; 30386163534771065447; 36018869915071887800; 82015433205106423379; 25943292525701528795; 94819997049114312559; 48865964605123474475; 11164877196477968511; 98706675966786358219; 51006389540806607290; 59407215971904050843; 10249081205302712996; 60080915150310467045; 36010486268709464502; 69129086738487348591; 45960244715075606934; 25683177021939642170; 85901454142388395456; 52868708292550559969] 1355;
SciE false 419 [16121379788807948468; 2226932764010911982; 72510858361788371706; 484747177236760090; 36362982290571838700; 7732982125371938406; 72898996249958289759; 24185238282584529909; 62239991400181862144; 51497958528350177673; 97647285412669660483; 75485718712749445443; 12574999695648157590; 68564965261486178964; 2167092617480691820; 39958103008388908340; 56633128481799636880; 22948862424174003235; 73747609026768871743; 43994646310870046155; 69969588226264425902] 1358;
SciE false 419 [93987644168750339568; 56983018014183616859; 28738304249226207046; 826076043290311326; 81996186754033819621; 45083285790918400911; 23001148137256829296; 37999939187467809373; 9859149863060256302; 52233098220281535839; 28283673955864120620; 29081740095329266933; 42312248225628758753; 69733747474464423360; 24634149959912433312; 92955740538907335625; 50171139048891883011; 73791867932934438864; 34948560626062522264; 25488787992372369087; 72922699359121603009] 1360;
SciE false 419 [54888784194550198308; 4478082520283232245; 82383169681548104914; 86882428409281541814; 86285773064355750658; 92728638901896346132; 15832670512157988309; 8591964485481200673; 88957743520027189680; 67304129360644416930; 14117665590224646442; 24983736215672291889; 11910352963767195112; 15924508525087223242; 38386343576588861054; 75086152474721884005; 29299945204552859678; 85494450872833712296; 78009959405620513002; 32485452187545463547; 23386856425727016157] 1363;
SciE false 419 [32109938753811866010; 20619678274365690863; 80694154263705641375; 19826220619429701961; 69477177242648114135; 47246253757609362487; 31262112249612423160; 81526299224006502394; 22540279959215905963; 19372915675976983904; 13258834370281418168; 71615485686168290755; 13467556483803809140; 61315837487176025596; 79456010992304483717; 2925399197712302143; 9640467944663422912; 13014253760607721693; 61635826252288000106; 36003989529714096175; 13181311009050304452] 1366;
SciE false 419 [18816424109733753481; 98083131468778294846; 19086774398531505845; 86618165282985805349; 55313625864191794883; 38686304701959086417; 56519597778272879972; 23774411345267810403; 1608604056100520894; 43152528586122512567; 82169676940984911046; 86766674612094618382; 50891988099509032156; 39931080767485150999; 72161222441490427458; 17914283929859409055; 85449314215572765826; 50826352703716124912; 45918594183840768062; 32698337864412460358; 62724248251303478409] 1369;
SciE false 419 [11045240952413713293; 92274798172172859074; 71403936571937993931; 52344863021112667740; 18769098382280583596; 54808860860049983727; 11077003895846180543; 70355579459672204706; 57044250580931005765; 3130534280053914877; 31133600364358142784; 51132037997299540990; 53273597014411801875; 80639544410513783636; 83658637573154880917; 95115684666827473115; 78658747444541213540; 16035069037081365323; 61354214785914530852; 58593924326410114230; 51419133723515141826] 1372;
SciE false 419 [64946016800192634168; 26575813252376411359; 31855147042995404317; 35787794564142486312; 30362298487809831547; 70276101857093904315; 41132782907575541596; 97690807222872563674; 63420193415874313898; 38407541566717019478; 59065570142425879572; 92656383424121301024; 33248750444741395029; 74160521133821047784; 59912788930150699797; 55280225840945541920; 82513434973902335616; 14286205938038428102; 84762782941177441413; 20532275039291471675; 42344506294269033937] 1374;
SciE false 419 [38253203895313461525; 10853154005649706290; 63862681608324293142; 92379010998279924437; 94683393809319990781; 59692623993828309641; 77727209132561994000; 61939885454271940004; 35954493921949970886; 14822041982796324472; 88989620813888843068; 45374609836807446303; 33183514011952681672; 51780546947820597145; 12888632679858762180; 75860053020316924191; 36600413199628475677; 90814575297504634152; 57725279152353512992; 37793509998142676816; 82440914207324460989] 1377;
SciE false 419 [22569390298234942299; 81403360863333326711; 47678982148911332954; 32503616488985155418; 38863202347498794561; 14218648156358702688; 64859053388211576460; 36544532418020444602; 57213151413950482822; 82745004769849831439; 503876280194417410; 38771019803716393318; 96578273267052082186; 78550522699214152315; 62604293281116669686; 64757431281986985272; 90594243787780800649; 96580599425527734150; 2057914699888572665; 50298170898904179321; 92640139382321431983] 1380;
SciE false 419 [13338509666256850899; 19009386270229996086; 48278278450006597776; 609637344990226852; 26768152587371787585; 63503221060407993288; 99131700552433041688; 7597818659050082760; 12012972485644735348; 29102297818981250380; 45197790881594900689; 53913672703996388451; 50877759500827780572; 39023358915235564018; 53499137329139951784; 80871641887654308296; 28741198078578453184; 12979134260486890882; 66216227587634146445; 31226219001252369979; 25850322374951966302] 1383;
SciE false 419 [78963977224240557323; 20535566719761576831; 97807408424039058833; 95609053082342142965; 42467463317240982506; 95939068677615320270; 82859667270403606793; 40979086461576489939; 91116797115016833261; 88285603088369002252; 27570922019041812082; 7168942407658619632; 93196336244900460988; 55018284778194538989; 72714892988508514566; 6760119974913505114; 2147892625184442850; 4836474822082394025; 36000067318794146956; 24859216487414030277; 21033908459715640509] 1385;
SciE false 419 [46825638493974650492; 66077591064818615061; 36299793195455161888; 53596168477828890778; 49683205747123902626; 62691867725825884920; 60135782691349338828; 49200598271714858534; 36732260689204982124; 29653362631402818335; 59949556757291794564; 66851182847741561442; 32865427393225973366; 21025842873469361620; 90819931542185549137; 67808751145123708532; 61473700326734374610; 7868029569494859657; 3848039920044929145; 5541515377036519954; 38573107716611374822] 1388;
SciE false 419 [27814429265420942392; 64050089092502257346; 44962077158100366161; 79036124075830361122; 42711824213791598160; 21638969429140575642; 83720654918661507264; 12425155373398625969; 41418962849387759381; 83214097403053274091; 34610036713831325971; 41309602611558487496; 74322063871576228179; 52889350666840800802; 81947039336058216187; 78078398180203482868; 37315377994080218518; 38673609564279946636; 28085735712506687912; 16291660133959692852; 90512425983667156644] 1391;
SciE false 419 [16549585412925460723; 62109803010038843121; 13752435909069717866; 26526493825119064867; 84413535407206000905; 32875186810338642507; 48813789676603596822; 15392967447172182451; 80144282895385716832; 19012387954816698084; 35092971844729638952; 99079213553877300060; 56221628003587855766; 81969163646770276477; 67758488404954638631; 72956646917221072306; 68202649906477730018; 44010797690746568248; 58711012748941479307; 73693537779706017247; 47854893460281958203] 1394;
SciE false 419 [98635529061035745912; 78174425939831505001; 97964518018055518482; 94097903197709626612; 35104671026947765395; 75936113389618309344; 62930186472557437060; 3742085985146207412; 73659926056498872319; 85313832210707520582; 73154112194588648159; 82512112781108708360; 95080902901383620370; 24536215334750847806; 95840590893529646245; 10821615626637590947; 82487793442607270909; 90304354236849546761; 57917635983691216674; 11213485167047862794; 97215165023280470892] 1396;
SciE false 419 [58885410849438340309; 93070132286079408486; 18184817256779144534; 31576448209032647087; 57357488603087815941; 26833859693602130678; 74369321324116789924; 84234025333132285825; 40374975855729826774; 95232357829792389787; 89073004980169422951; 41559731330321898891; 48763299032126021361; 3648120554846256140; 75416832763437198808; 32960504529102641795; 85145212685236540733; 21211699479399179416; 66276828682263656354; 44494450644727574088; 59837453518898441122] 1399;
SciE false 419 [35213475687964127505; 33855939107075486274; 73674520719553928431; 52082716029001522958; 36899778184646513932; 87846648096774074145; 88872854151821840375; 5571947149213106923; 59144235561726436411; 42148949982215849093; 15865656978141314924; 94652719335532495537; 10960452821211360773; 89981576091798061172; 17099265992535444887; 38110381708403379793; 91916837185771451358; 46084596288680709291; 16433543551993666499; 95807681485547089304; 98182797204301267791] 1402;
SciE false 419 [21092871937090512375; 69779707525138216278; 56731037911012803130; 48097546901371912252; 6302967132603261845; 79420142209967670413; 38734839636941282384; 65837596342378651047; 23127397101474135410; 44147221039347293606; 80203528529906647640; 4296978881983964826; 72865311239905605103; 56598964078987038642; 13042460329528731487; 54128118643333624496; 55758185474277099363; 71804673176919744865; 40743692587644206233; 47488801209842706493; 68411495525376459407] 1405;
SciE false 419 [12655723162254307425; 41867824515082929767; 14038622746607681878; 28858528140823147351; 23781780279561957107; 47652085325980602248; 3240903782164769430; 79502557805427190628; 33876438260884481246; 26488332623608376164; 8122117117943988584; 2578187329190378896; 3719186743943363062; 13959378447392223185; 27825476197717238892; 52476871186000174697; 93454911284566259618; 23082803906151846919; 24446215552586523740; 8493280725905623896; 21046897315225875644] 1408;
SciE false 419 [76060896205148387626; 76625625335648407900; 51372122707112168088; 51439754126347115580; 93928499480167362215; 93389032809143419510; 67477831730810264279; 7810372410617415676; 31597393947915732290; 5194879067886340746; 12813923878843371389; 99494905848434177165; 18352312331099612003; 45895864468827261343; 52231111948280605744; 7385995827861049934; 58664016820243220305; 56727651475972599984; 65921755471045007677; 91044617162692799616; 22491852864507512621] 1410;
SciE false 419 [45788659515499329351; 31328626452060341556; 10926017869681525189; 28566731984060963579; 72544956687060752053; 99220197751104338545; 42621654701947779096; 501844191191684237; 14221631156645270838; 61127317198867577129; 16913982175063709576; 77695933320757374653; 44048092023321966426; 8229310410234011328; 80043129392864924657; 93246369488372352060; 62115738125786418623; 95150046188535505190; 76484896793569094622; 10208859531941065368; 96740095424433522598] 1413;
SciE false 419 [27610561687846095598; 84191161750592385958; 33388388775417959689; 13925739386388761038; 57444608882297633488; 55729779243915916142; 89200857785274510794; 89102612047288585594; 99675643587457098315; 68259772270917149008; 88899131251563416874; 79650647792416696916; 2460999490063145754; 92762274177371108831; 26666007023897549568; 73327560801488528292; 55455790089849210430; 24275477851686909630; 3120392766522164057; 12755942297760462417; 48734277540933414127] 1416;
SciE false 419 [16676779259459041741; 70051461697357801118; 83366586820352447652; 24011146589378811667; 29896543764907770627; 8860786663325213350; 30677318102305804520; 11417977676562305699; 37804088726824087382; 67228902451633958001; 36895075275944303792; 37708991266619684937; 27886443691998140035; 97628413603132149734; 8506268242434119939; 51489846724099071088; 70295297214268923099; 86662388622418893416; 53884717230979387090; 50504589147847319300; 16235503634723782132] 1419;
SciE false 419 [10089451451972720253; 72881134326901469676; 89436785026313230829; 60526743686574181058; 71587408977769201229; 38860775931311754076; 93559777451895011734; 66907876494320194948; 12371473679728572866; 51673485983238544590; 82821520541946303794; 38813939716304909387; 5371298433658874721; 76565190229894950589; 12146292286672642563; 40651357268079938008; 66528654814632698475; 41930745116563430517; 600253924742529189; 75555276434447628176; 59822479699007888190] 1422;
SciE false 419 [61142075798954684737; 59659674021022906241; 97986917259458178827; 40792066740639537215; 81819698405281359450; 9496302143749229706; 22972251358483771112; 9461731555580381385; 62971130499155151571; 9141325058425580220; 41898414484194600993; 99212474680807750885; 54550068507972780813; 89985052793163400570; 7606531257236213934; 24347225044564424332; 51163648176674152761; 4100315406374388933; 5637538783939726889; 91864975192752626750; 18524226975987802432] 1424;
SciE false 419 [37113240009965493635; 72113422130760904088; 88178058776491114548; 23660784511568199090; 164556932005785186; 20764255401255782431; 68144156574599649065; 4143271054237291501; 7723476212987177003; 65248784310464327193; 79432337591906122803; 35321972131250304787; 52611891584339477954; 3720927045450184146; 3617164473142381858; 8578765602050605569; 83456334443241210725; 95188891451669254082; 36521986041851414222; 18062039942000844437; 36244205774424596076] 1427;
SciE false 419 [22564849926059020130; 51844960655502629686; 4012259736106597645; 32785756983033465046; 72100050614659517393; 21424667283963515718; 46231647197356586631; 54519108800976273232; 65495873537496203618; 22071260860762310933; 82694861255878922664; 43875759055800185310; 81588030083278402596; 5462323643633711960; 78999235999670568169; 71615889486046768186; 45941451341490656121; 37874846002614906482; 7805367513445659847; 8581720284736513417; 91636477110850154414] 1430;
SciE false 419 [13741993604969943259; 48573581039201101478; 79843466179288917966; 466526002667380213; 45308930824327646092; 46747622375933781072; 54355073143190161258; 61102137259794550398; 68686986984335188003; 49641397864204247358; 70061170504830263902; 64320337264982312854; 28687110320716547180; 99726555098972930584; 12110534723799376015; 35714076697002481825; 55378343866967809577; 91965781215592478047; 58553468815688406846; 87526267653404536671; 51106614560507744038] 1433;
SciE false 419 [83826160990316653882; 86298844339126719020; 67045143693662399592; 62845808616271019302; 6384478028398641164; 5160496493196064542; 51565946173459983677; 52723037284746757431; 98990620604444646821; 32812526971645908888; 7373140079464609806; 12354057316392108411; 14991372956370937804; 8331986103734876563; 13874261815176193693; 67855867851715139135; 87807897588503638425; 30991265415114116090; 27176159775699281765; 93910232685767673696; 21750348819097238634] 1435;
SciE false 419 [51217784365083475522; 42928593891206425321; 62964582796827726151; 9598789064541592793; 56100916075351569751; 23553063357342795435; 47706793111984050026; 96913775780980268790; 94583269189315679207; 83148453979675650330; 61304988588552876591; 54148329020315578239; 21259728876342642998; 29490843509382009580; 7777173969072654346; 83759935257397950012; 2150625426575723077; 86435663168634724931; 15604633622952261158; 98879152171004048628; 38889463128468412805] 1438;
SciE false 419 [31345284031431087019; 72672299461418332296; 83734324671658568404; 47074458907499454789; 65933760638115160687; 75614474774693790806; 51196557384534238616; 50511230777959924500; 5884960743861195675; 19286853835561498002; 33518653016194360474; 2338777360433133882; 39810954072321697514; 95648396227741789863; 759630469072464460; 26461080377527545407; 35716182761064342523; 65298625859204451657; 86750035777246783829; 30114041128654477760; 57400351434622668637] 1441;
SciE false 419 [19214659111267256343; 9248119569849437697; 96129141023726702431; 94056643310297165786; 6117395271164593501; 59451673036887293764; 39183489676719488271; 91763384466889433718; 53607480935986912948; 89322841401199198275; 43146934298927142970; 57633670521945511069; 91004114846333200576; 66832466887605717186; 2365653477541420714; 14220642271424385334; 70994020032532441966; 99928057651692328866; 27277771931452278487; 36159907211865194867; 23186415429423695874] 1444;
SciE false 419 [11797800694318095394; 65878345415887554746; 54823292588568195293; 21150778992522459792; 64156080696495060409; 97903327244648798371; 33658662661505765798; 95742718062670112303; 18114993294695964550; 62044224620336307741; 11492217659541265783; 93387073700474543796; 92476526515648585154; 7435134668989910352; 21852511235210432318; 48331474354654572595; 51190328299974919367; 73755827398139089923; 89148551965911698991; 24002183028085229648; 48036459073666149267] 1447;
SciE false 419 [72556474270056286677; 15151824307708461691; 27163249419694401053; 25077290804013127724; 74559896283444621521; 37105462554590109983; 72000775368260459663; 58817716085421190664; 56407208762380181986; 31571981415068292607; 85677138606178784571; 19330503257918444351; 8730638071238798697; 55726078214287948666; 14392944096544158758; 67238567281125621462; 39820519044845754111; 58598338498555403031; 93263594590356948796; 12613425622724162338; 15424223303046817991] 1449;
SciE false 419 [44694788150354672593; 12533523773548412401; 82332561642531751048; 80247611135272086678; 44328896110601886857; 16456964933627507749; 97152477626848443152; 77031713108619453449; 37146840597626192103; 57048340551682068246; 43977117381406131295; 85507590006877761720; 26978073051883099997; 69527264180001376378; 34466053563471201795; 34218957445173382820; 83729439731624984532; 73696576515110128267; 67050374267659880458; 41369870183598084000; 30301321554676839883] 1452;
SciE false 419 [27576684288768832989; 95833184168279370451; 92499190533442090397; 11112776070462877480; 59950928900241364190; 87053947364048172281; 73243078695765489425; 25928566988018202778; 26219600648735360527; 90298826120387836108; 5333881424327583009; 54258183034243578981; 40645471073011872698; 57798321999060849225; 43865555048661731507; 72613096743671977200; 45661064314412615456; 69870787709822949141; 15270080923146146242; 84125209903280017828; 18695915399235610208] 1455;
SciE false 419 [17042390890459138787; 79424907815996650939; 28964499749667211865; 41467695611546058283; 1049674060349163069; 95799339470981770470; 11064222633983072464; 81023854398595249316; 96603713200918452806; 24404674542399682714; 77696338720234446299; 89731557115162531810; 50918901123121337327; 72119362995419604821; 32108913020072950071; 77474893787589281909; 88218537746306996352; 23980146804670582569; 23236910010504318378; 7589379720227051017; 81954075716727607108] 1458;
SciE false 419 [10549239961194206909; 64464017938101926931; 42029025345044004144; 69168503583547010077; 18349748243356131940; 30399791132537715920; 99848753810435521855; 71753765872730459327; 20197698471368522287; 6506493541745403600; 44694033667825122259; 63643833854285607190; 70518799795212107805; 85941885694164735384; 39775417159425156094; 42856959254517765502; 21707274864964030742; 3643710872091090610; 35483647296502173076; 2897826046820544580; 3029572868654388800] 1461;
SciE false 419 [65405287759404082839; 79676911216231946974; 80579957139272825697; 8844722217991462478; 53768439108808018029; 88478705021733838710; 19062273624700235505; 44873348410928847828; 65225730522484838179; 80340259958821502322; 77103008740515758009; 74591769896570764582; 37216558730315068396; 32839691303821359383; 26607586388435967785; 45713147378010146113; 74585104162776990600; 62591007406964761784; 19998613238313473071; 37966521490287376396; 18783351785657210560] 1463;
SciE false 419 [40616683698589935443; 51379361865280039071; 35440153383488424757; 89192572497372698199; 17190200686569779196; 55845275818496713839; 2837671920938846248; 88366349363186814501; 59305178654463084509; 65791301434428152942; 44080968427860285724; 5221489105770444805; 65311482971525657474; 11993448299673064177; 823311147218735994; 76887864521744300736; 63617349685084511162; 98869015599725117067; 98819138820992666777; 32677209845468460742; 3264461458893127758] 1466;
SciE false 419 [25263577260522939845; 86557963080204184302; 38243775404529800199; 40877780093365818279; 88492304827046402660; 25935761559104956007; 87565031934823962366; 80563869303902198619; 99087821123076038565; 722189492214311130; 19818362362129097720; 36047766223789216669; 11623742408288958948; 90259924842396645918; 9912099533570053788; 74624251732524955058; 18769991504122565943; 37896527703029022816; 28865504346657438735; 49725224523881382581; 54430495027431525465] 1469;
SciE false 419 [15739208633305791523; 97425610998967206820; 38425872077022065524; 23166856998166904788; 36830705907249908857; 34157979451322387592; 90653014895395328554; 51991290576331069740; 25431712559676372025; 99949924053649515834; 11346839751606427879; 78457758357420681984; 85941591520364021425; 16631933176813110406; 97575238009414143510; 38890908829363047001; 25093704707068358582; 72509536758987081214; 54783209207967584332; 21478814878378101348; 30210198402089840365] 1472;
SciE false 419 [98212661871828139109; 59935812633555370559; 19777441760617688871; 20561187668561485879; 41823604861239431269; 81145791776251698579; 73674812947266850180; 20425653196305875179; 18693886372380561442; 23687526094772978804; 86804280050024109969; 85576412150305055585; 52275531087071493693; 3783263023313808939; 52869485178744255504; 82679271095225413287; 80584717372106557556; 20459509376079386778; 77847225457717726233; 2027804841079352413; 40511638029040603877] 1474;
SciE false 419 [61382913669892586943; 49959882895972106599; 49860901100386055544; 50350742292850928674; 63639753038274644543; 63216119860157311612; 33546758092041781362; 62766033247691171986; 99183678982737850901; 39804703809233111753; 4252675031265068731; 15985257593940659740; 95172206929419683558; 14864539389571130587; 20543428236715159690; 51674544434515883304; 87865448357566598472; 62787193360049616736; 73654515911073578895; 63767378025674595258; 37819773768150377423] 1477;
SciE false 419 [38425703957352759426; 63074886692878538731; 28612924088841670770; 85919564675324681350; 32238485401959927484; 31373291032458477069; 32200270565618155133; 491536813054673663; 85688983043193894664; 27517744584579927957; 40462174569571933025; 70606771253806852997; 83577801537816721907; 40105201657871527747; 59060186076183689966; 26348264816006942948; 85403770671836690643; 86504783043391060077; 19707726960332060388; 66918378644072296631; 74475178378862136267] 1480;
SciE false 419 [24092916381260180160; 49747953956434843784; 51640303403703727573; 32871567051428575206; 65213530347028874532; 66471053477351465122; 46489569644642583268; 39408193581785280387; 23826992368082571954; 50053625854531614829; 29269783455121602007; 11770445576136896829; 64303281564211084635; 94045961439485447897; 73930736669767173608; 84720362039636353228; 93148164211241605033; 70338498968206194668; 40256744804128201863; 69557823409833329988; 10395936843546559439] 1483;
SciE false 419 [15130351487431393140; 79241715084641081896; 67630110537525940916; 5043344108297145229; 77754097057934133206; 51343821583776720096; 90795449736835542292; 55148345569361156083; 18563351207155855187; 42633677036645854112; 79581424009816366060; 46991839821813971209; 1582460822324561151; 37060863783996861279; 78028502628613785026; 35604387360891629827; 76897047124659727961; 16572577352033490251; 75681235736992510770; 40082313101375331232; 52928648337747239328] 1486;
SciE false 419 [95169910855943462855; 58430387882392405130; 9393395281038168361; 95722634441189043495; 30073270494405697868; 96952637761955569409; 55103378844695561020; 14883093631281671763; 23763479093010329128; 91165828560502422369; 48567157021744942520; 35578672479209878904; 70953678572421489642; 12112833201340257449; 81799281533980707815; 77951596500008351616; 66682426414109688875; 73241511544290653683; 55034972785682892745; 82117749407650833452; 60921198044430135373] 1488;
SciE false 419 [59957043839244381599; 1811144365907215231; 95917839027054046068; 3305259697949097402; 3946160411475589657; 45080161790032008728; 1715128672158203442; 69376348987707453210; 83970991828596507351; 21434471993116526092; 77597308923699313787; 82414563661902223709; 96700817500625538474; 53631084916844362193; 38533547366407845923; 94109505795005261518; 50009928640889103991; 71142152272903111820; 63672032854980222429; 86734182126820025075; 14380354767990985285] 1491;
SciE false 419 [37832894662563204788; 98042832094887452811; 36624156426071103068; 92885618869405880460; 68690027219641097073; 85145582089510197507; 37882246192131826372; 33976476211243402976; 3985695843844396138; 61625151827656527964; 54163901930854267000; 11703589670660303160; 98918215842894714777; 43241214582528792544; 2614668388203350778; 683098156648320018; 17356264972401024618; 76990698084201863558; 82177052731492520353; 24629268922023435822; 41574003858602311715] 1494;
SciE false 419 [23910389426739945426; 63563069883968870176; 78346466861276937139; 56303711125464516451; 15412097202813173350; 67412007880570444824; 66341579593427314267; 31873132965505830680; 85718959773309658359; 60547095955078925673; 59031586020299896744; 7396668671857311597; 74516312412709459739; 33728447616158196887; 82452470421344517691; 70031718035001738251; 48569159462557447559; 6258121189215577769; 17535897326303272863; 25165697958718811439; 76674770438636661004] 1497;
SciE false 419 [15135276507126385455; 6035423236552294821; 90393313523188301209; 34340249142419038913; 58055857529380738730; 97671800988401091574; 1194219882639489931; 21275693167165190820; 98260101536505013741; 63026311739564959951; 38266993950849834638; 99882091269285678241; 37268825757245088015; 50107341028138629; 99292413776711079698; 84630077516156100313; 19044277939798864304; 88661390712773460727; 88800223007549971722; 43829886807869007641; 37235129687657006415] 1500;
SciE false 419 [95957653055181283785; 8264583319741549170; 87093607737013829667; 23717179562936706712; 10074136736273883554; 39239218266462920579; 23571354055934366163; 88887894679827309805; 2969043741441787121; 93586816428841846091; 76612741648387951611; 25252458647271200050; 30284355300933858015; 10317680542118398914; 15513903344348245290; 68554691452429675985; 62740722138324799692; 98113217118983741014; 80993413867866820720; 25881482361889508446; 30070722219745420673] 1502;
SciE false 419 [60933109690040115203; 52748010408035883723; 50304440913003781838; 69560409022464808762; 18397076827533916057; 3916903599203954567; 81467809825518322514; 6943813121690341726; 19385342775815534822; 42927628432314572268; 27149090946726349273; 14535311241017212031; 94230565616092999839; 59051727144245183310; 48851328623661135759; 58532229072292844250; 87340358557836247805; 4301892870554675544; 40430817806095431157; 36434741299799837863; 40094908609538342128] 1505;
SciE false 419 [38753457762865513269; 44347734619510822048; 14793624420670405249; 41040420138287618372; 74900540862311570612; 27691150689093715105; 13013527049029653118; 94816265145395057337; 85929078005418680147; 6501971682952067962; 62066821842117958137; 72044457949286946852; 31530639731835147897; 97956898463739936585; 47069445004648482343; 9626497689978248943; 55548468042783853604; 736003865672773646; 24114000124676694216; 8372495466672696881; 12300361875666385593] 1508;
SciE false 419 [24685952594945331952; 63549506952628393644; 67023538755967048143; 87442747628089212903; 44111644529292470480; 2039262988952696521; 96789616730231889036; 76997960897616651524; 21636822689451699253; 68041755962040467292; 18936565513429139333; 72792319713695785144; 92485017509178989211; 1298544321402339604; 94483236467961083252; 55232079028516144577; 4484374143253314745; 75268834462433556812; 65560618079419054215; 64533279612270507913; 27535330514799487623] 1511;
SciE false 419 [15749637755575121785; 78144585435776915145; 29961017726306976715; 79188472986720917832; 39543229209688596166; 25301049786951820381; 1551775473887945205; 45924699052679423672; 45004292875870184123; 84810640303781818132; 41681528797567790894; 91841499977337910922; 46205441170856195116; 62628471277054692667; 95480304866559171115; 12838066420193300240; 15461030703395614807; 79021516387032609246; 47427674334669356589; 58172232392628584048; 66967540868442073103] 1514;
SciE false 419 [10064018525812502821; 11434390093461448777; 84645090327110158121; 39101434238514666494; 90068123464991012950; 23567370813862213223; 46891584527814396986; 28845882694662151726; 69557743147681047655; 13893999154116581786; 61434496901645818381; 85286718485518925079; 45325276908177108679; 52419593146037948614; 82311914809731310342; 56703524442503518853; 45879598619469797862; 17794748971313837308; 49706283899853718860; 74272056498889665207; 9992258614934484713] 1517;
SciE false 419 [64409718565200018055; 13180096598153272178; 21728578093505011976; 90249179126493865567; 36435990175942482881; 50831173208718164630; 20106140978012140712; 24613649245837771050; 85169556145158704992; 88921594586346123434; 33180780170533237643; 85834998307321120508; 50081772212333495548; 95485396134642871134; 86796254782280386192; 42902556432022520662; 13629431164606706317; 93886393416408558774; 38120216959063800708; 75341161592893857325; 43950455135580702164] 1519;
SciE false 419 [41286629600293211573; 33948441919416247466; 23728018557936712677; 19449723820082567828; 68055469702779131527; 4682782026788343527; 95888036366905782196; 54977349166582011243; 59593685489046729900; 44198742129847865121; 40668880089311805329; 71320233914992838245; 94902415988105770646; 88006138922306080397; 45036399315441727549; 34700538672926435744; 42936465376512898749; 79881178179917886174; 37835059070759896254; 31093684581044962545; 60672241741907230087] 1522;
SciE false 419 [26506016203388241830; 8394899712265230873; 32433387914195369538; 75886722692493008546; 1291611549184202440; 36406346061198116544; 94960119347553512170; 18495458164945651218; 38859146083968000596; 8375592447362329407; 94309421017338179021; 67587590173425402153; 89927351064363904755; 29699941188120503615; 16313368360513589086; 68077745828018771747; 92365210771721280997; 37083716391507282923; 95090107923427853395; 26762145501030865954; 27951579198304441716] 1525;
SciE false 419 [17043368418778639496; 74397920514986543451; 54754668428827622613; 42195162691273004495; 8630506226125442169; 15409280517350388938; 40259356740476908325; 42892579600060053733; 42386430931991424383; 28185505943653977809; 30740957714148449110; 93758820481512533584; 95723286734385990757; 65597062183961483824; 54989495855810237782; 73573990567416070233; 91490830526216783681; 30944829639739182920; 10042939394764109733; 15708059557162846808; 60172865424509756023] 1528;
SciE false 419 [10975929261693443835; 90312260811651333982; 79662006468164988963; 4373684773179814894; 83558046009624784756; 93523576653173650476; 33127025740867128961; 57622821262438674604; 32496861520202477302; 83351465827713161709; 19397176767911601227; 44380680390094071628; 71245796656944578047; 93044508046471195583; 1013235331141793132; 8181649925415949230; 64120094858883608690; 76328470287992033800; 54467652970228086668; 15315990354812873344; 73951325333384282879] 1531;
SciE false 419 [70794743737922712741; 57514082235151104189; 3819941719664178811; 63210266787009806071; 68949396762079861682; 23227069412970045572; 33669316028592981802; 16667197142729451197; 89604756805305978603; 27616954588749893024; 30111790153029827917; 1255388516106762005; 19535388437292528409; 15137076899739211510; 41535367885864565701; 92771642018932872537; 63574611839799276055; 42318633357548618013; 51316361657971159009; 58788137788543033073; 56986048400328624569] 1533;
SciE false 419 [45733404454698072431; 5754097123907613306; 11867682350903059512; 31433832344408334722; 31141310308303590646; 72204686840778649439; 72950378154471066244; 19967009354203225473; 84084672896227662177; 71640552664332430893; 69852216438857268834; 39010980981404968255; 35619860930490973352; 31178551677231530635; 72831847654268509443; 44530480744230635659; 31269199248510332331; 80337837148976407236; 72950369631049368720; 19377137011398799365; 52612987266612291472] 1536;
SciE false 419 [29589512682189652862; 89422900839168225809; 5878390481034279504; 46737689526832192565; 33548427769472423148; 42916432385983786187; 50498894665942779859; 99718655052169486881; 57502783363859297428; 98251437573823082788; 22294384035940652935; 85040104694969014461; 21546050022027659758; 94572522935168800321; 31622205432311725609; 90911221041517221271; 57531171913786185018; 67678580635387735482; 16398889151288941561; 96537007646375023189; 49540602761498152582] 1539;
SciE false 419 [19174004218058895055; 15546039743781010324; 27009197031710213118; 89486022813387260782; 33739381194618130200; 18209848186117493449; 50323283743530921349; 27817688473805827499; 26061803619780824733; 98066931547837357646; 76846760855289543102; 43105987842339921370; 86761840414273923523; 79682994861989382608; 21291189120137998195; 22110471234903159383; 98080199400133447892; 10255720251731252592; 44226480170035234132; 15355980954851015026; 79302310589450802873] 1542;
SciE false 419 [12443928737520222890; 79589379793713875700; 45128968873579928314; 16276428805888332247; 73696858395307166499; 91818191472790253248; 72759811149551567955; 68153679819499982047; 2014110549237755252; 35345438574546445112; 75273547795082913473; 47775786109678608969; 69308434428863776366; 94414263665431109312; 73017981738969560828; 69849695831452150440; 20354049410686607681; 97455962443373582932; 49502985630352866951; 76766031639698308752; 38867199572553571065] 1545;
SciE false 419 [80885536793881448790; 17330968659140192052; 93338297678269534042; 5796787238274159610; 29029579569496582249; 46818244573136646116; 72938772472085191711; 92998918826749883305; 63091718570045409140; 29745350734551893232; 89278060668038937577; 60542609712910958303; 504823787614546385; 13692713825302210532; 74616881303302145386; 54023022904438977861; 32301321169462949932; 83463755881928289061; 21769406597293635186; 48979205658039006890; 52636797221598211921] 1547;
SciE false 419 [52656484452816823162; 40282460597100265026; 45963231788553466661; 37973708492116477906; 29898256299742275044; 40378677217111956621; 99083140879327459804; 46642296156214174031; 96572708789099561350; 33364223328193282494; 61320017494893348363; 2113238923105033855; 25628640285737069696; 72413956700271739056; 81775589728449696646; 63768987910789774587; 72128160081320380406; 27534905079135316178; 85271883694838156506; 40485462883383393485; 73266554991260435961] 1550;
SciE false 419 [34332027863236568701; 88664164309309372797; 25168027126136860263; 21958857936859943594; 90693663107431963328; 95126897545556995717; 53802207853321503792; 51210777093851641468; 84165406130492914000; 41753473609982020186; 48780651406670463132; 68977831777864482073; 62709873466300569442; 26413899768577173865; 4517684502949202213; 60777380117834933031; 19427560373020888024; 89152758111596226148; 61197268169034478042; 17596521799965972552; 69769793854301804246] 1553;
SciE false 419 [22418814194693479362; 33197699293979020436; 60534721713367369751; 88239134232769543167; 47422962009153072053; 80517864097248718203; 55232841728218941976; 51040637442285121879; 15360010203211872842; 27265018267318259181; 77653765368555812425; 64642524150945506794; 7849547373494271845; 79848276548880894533; 87450047980425829045; 48587629216946211269; 36986196923582639880; 25416751046872335675; 4361816114379514161; 54090528735377780076; 91159675386859078173] 1556;
SciE false 419 [14661904483329535502; 96511295338262279365; 53989708000542259817; 73108393788231281231; 52814617153986109123; 18858683119600661705; 12322278490255188052; 63780576887254469708; 96645446672900564838; 84631321946826141504; 88185562551035501326; 37276210794718361443; 32733603982265253787; 15220772862968105025; 15392331379198492195; 74776309507882822170; 16788972788023046481; 68622555184654507531; 47852627738804202261; 64775205792937068170; 30018427703005837125] 1559;
SciE false 419 [96035474365808457544; 42148984465617929844; 28632587403551801806; 13859979312914892066; 50935742358609014756; 88524374433384334168; 55710924111171481744; 77762778611516776593; 73027675707498699694; 44335158751711226856; 97615434709282533687; 74159180705405267453; 79405106083837412305; 84696062252441087914; 75819770533750123882; 14784827276632485214; 59967771761550954455; 4477736459487024331; 18434711689167524813; 79277597943737796515; 46620701454688233169] 1561;
SciE false 419 [62999271183970348149; 14049733809445361977; 85182977336729981984; 82692146429272169195; 63013846987247513680; 51671989628300123214; 57346366216928492024; 57412382769155005445; 48706155264119146999; 55483864141122564818; 17635725169289342099; 15848422542745855449; 68889749590997342472; 63560616837601353672; 8137769470140081266; 68898846693470910300; 77738858275577426122; 50937395117423487961; 25693170868093896277; 84806104251091994514; 14583180154275480959] 1564;
SciE false 419 [41390521167868518733; 98530675112805602819; 44865216110231598164; 3128740204031815161; 52900097470621616488; 9948497185793180951; 97476562604522019260; 14519935479334838577; 68499944008526279578; 70752898740717525085; 54186671436223097759; 14712413610584027030; 44560565481285254004; 52159325262304089362; 55746514541882033392; 21466542277610388067; 61074429887054368962; 48865868592147231590; 54580413260337689854; 54617610492967440395; 79381149361358990990] 1567;
SciE false 419 [27234962928457485326; 96233184224226086655; 19721312200532391591; 93258711054252934376; 28608264135669023649; 16946111148251913066; 39939578193775488673; 17554117545402323784; 11672963157610291962; 78955407371392131506; 28654829805034798325; 51880768155764289786; 3320852086685697134; 97520836022596090800; 56281206568558377972; 7724984818667635348; 48786974865681774777; 31753741533632878386; 57913911925302199924; 29138387704372575780; 43232796279774216071] 1570;
SciE false 419 [17947840569853482830; 46817668403764991105; 77496344740150846059; 8357490584752683753; 97252846065405886584; 80267487246698010710; 75720182029698047035; 62268163462420131373; 73292482720865182403; 47831613457747414662; 64283532841517932096; 51689426214648666968; 99588441525125874411; 94866230938890823837; 57089315128679971083; 59890764995501971694; 65350616436484289578; 25225715670664066856; 75565267958774149750; 10802197497181527439; 30490412748371208391] 1573;
SciE false 419 [11845574776103298668; 10899661146484894129; 81147587528499558398; 99515943785936771277; 62186878403167885145; 96976541582820687069; 9975320139600711043; 51096987885197286706; 66373038595771020386; 29568864882113293677; 34427131675401835183; 70115021301668120199; 53728371406583077111; 88611712419667943732; 79678947984928780915; 17527904897031301318; 47131406848079631121; 64648972342638284125; 45873076852790938835; 7129450348139808109; 94123672413924997538] 1576;
SciE false 419 [78299249270042804196; 20046760178265150198; 5385553563382081017; 35800388425042058145; 8055266244939720814; 86014939862444741526; 74936866122760699997; 60751089921154065131; 4725785118046444753; 41450196870768871207; 24563340374406130564; 26460290804026274518; 94144534997514139709; 56723419094005108073; 78677846180379241849; 30859451369376901715; 9538599265806361714; 8329707184839058069; 28221037996948105699; 82125666801204131606; 71157474656044233727] 1578;
SciE false 419 [51834103016768336377; 88470955238011529431; 11165236458958937633; 49099857137377842492; 4332586254150095179; 43741890188938418890; 70808205373267583398; 41617221527803991116; 75328469748146746426; 76040030328448992739; 19660931327856858433; 54316712512265393731; 53923682168354360487; 73350903440231381544; 84684734171411058104; 24228956806527508935; 39314552713963811454; 72314266156363456441; 86482327153979645973; 28167191422397135123; 64306248222301282727] 1581;
SciE false 419 [34366010300117407018; 53756243322801644012; 82702551772289775651; 453205282081509572; 22472504686501513103; 96700873195266171724; 53945840162476407793; 14992217872934046110; 40742775443021292880; 94214540107761682186; 8735197470369097141; 43911980395631956044; 1051401277618941003; 36731648980873405964; 23345978755645531523; 11263798362727738424; 16565548449358006994; 48144358461668971620; 95637782903088505280; 28574847913049300586; 97535042571385750448] 1584;
SciE false 419 [22819030839277958260; 30894145566340291624; 51714494376800411032; 26700928307302122355; 95721743111837004701; 3409379801656738025; 9420037867884334774; 65154832667628206617; 31053202894166138472; 94558454631553756971; 56200171120325080501; 91557554982699618813; 22298130448338976826; 23589814923299941560; 25101729893748632931; 34679162112851218313; 64599524170373716644; 33567854018548197156; 31503487847650767506; 10973699014264735589; 75163268267400138298] 1587;
SciE false 419 [15174655508119842243; 10544606801616293930; 30390138760572273336; 45756117324355911366; 71154959169371608126; 18767237568101730786; 68764325182143082625; 14327963723972757400; 51150379924620482084; 50881372329983248386; 8873113795016178533; 77385774063495246510; 79328256748145419589; 44687226923994461137; 56692650379342840899; 34561642805046060178; 57458683573298521568; 48322622922334551108; 94949819418687760391; 56297509844486049167; 18483573397821091968] 1590;
SciE false 419 [10106320568407814933; 90822708129876451757; 58239832414541134042; 8073574138021036970; 22989202806801491012; 4098980220355752703; 93397040571307293028; 34542423840165856428; 74066153029797241068; 28286993971768843425; 13509493787480774903; 49338925526287834176; 18832618994264849446; 57161693131380311117; 61957305152642332038; 96418054108160676078; 93067483259816815364; 60982866866274811038; 56036579732846048420; 78094141556427708745; 34510059882948847251] 1593;
SciE false 419 [67409158191280125609; 16787463226275933223; 7459682204989364060; 67850739500600316591; 43337982721365945050; 31340198069772870535; 23958260610619644499; 6397967013906262379; 70021240708747597925; 44674249791698185645; 65108323562496768606; 30090633260339853955; 17613568691746545808; 63268493186306675154; 52255225368124354699; 89108420901431709446; 46760113342978158481; 94755721998052989627; 19763986818083142966; 60887924181372817331; 45182099419268811161] 1595;
SciE false 419 [45029317671775123906; 92414025435152323393; 1383067712932895192; 53324293986401011483; 7749772457872451293; 60935252310608277517; 54004118087893922525; 37473841965289383269; 63974188793443395414; 19842398860854388011; 29492360139747841429; 900543017907022442; 5765863886086692600; 16663353448452859003; 22106490545907068939; 52724425162156381910; 24035755713109409865; 94096822294699397070; 96802343194479539501; 69473133353157041977; 40981642412071565856] 1598;
SciE false 419 [30124613522417557893; 73224983016116904349; 92625272299952106883; 80473952676902276682; 17884597774316669915; 42465683795796937659; 23428755000801034169; 47570000274778597407; 38898732302813631532; 9874564837911585579; 55630388933491305916; 702463278979798013; 73657362939791997349; 51147783457014962673; 15489242175211829120; 54372640433482619497; 95079920572070195200; 31450774115153896640; 47760767597106811926; 63377526213262061082; 88716718773675877558] 1601;
SciE false 419 [20183491060019763788; 80060738620798325914; 45058932440967911612; 14917548293524525377; 5982680508792168843; 33452008143183948231; 68697265850536692893; 54871900184101660262; 95062150642885133126; 50615958441400762338; 30272360585439174963; 72470650396916464669; 20350433169660638224; 17269014916200024991; 1377792257391925510; 76429669090433355063; 62703546783287030784; 21072018657153110749; 11999714290061563990; 84462942562885580925; 53440201578362837964] 1604;
SciE false 419 [13543122501273261502; 28520755614555676688; 59634543667889468691; 75209674904954956528; 714378621399545293; 87746297464076429263; 46195865385710120931; 57119045023532214036; 43986703081375924327; 88563308114179911529; 112753952829686400; 65927806416330947793; 3555140656842288248; 41987509008770216768; 97024498604709982017; 72284307959680781247; 69374079891585597656; 20539324518949737312; 65951808288631309437; 85674634459696224801; 3358375259081464274] 1607;
SciE false 419 [91009783208556317295; 35659477729814147347; 36744133448217229608; 57409015361297307868; 20800624335804944374; 85655118958593604650; 46436215391972012660; 15839982558136478324; 87590644706846211483; 39145430527289005474; 88757706563015492612; 43034859117743969169; 19890545213980177029; 38156060538935856687; 48004630623651079159; 9750549489054849984; 50193816871455216249; 70024260767342234741; 7196151699602399422; 39733543569158630662; 94568281741027439918] 1609;
SciE false 419 [61249584099358401539; 77498828512164921164; 77828801810650195526; 57036267338153088195; 30398820177996727564; 27845895059133495929; 76251572958797164520; 28660308261625849912; 64148503887707500328; 32244874744865500684; 59933936516909426528; 16562460186241691250; 87086336929008659140; 77379028742703831550; 67407116409717176274; 7262119806133914039; 56980438754489360536; 4826327496421323980; 74143010093832414811; 27340674822043758436; 16244453611711467065] 1612;
SciE false 419 [41282219682967562637; 80834210417199156865; 6056612420378231784; 90842444185915181443; 63488804799969794378; 32368133269855976256; 65993560174229288886; 67317047768335822841; 12036091620314855221; 28933045578039347461; 41995473212396953479; 98363098165526899903; 8696191090151836260; 88153465372582382465; 15432396460149376808; 72494668749334258062; 67004815720525829001; 29652944732587972363; 1972388803243047582; 79827614830057493185; 97348761734293528802] 1615;
SciE false 419 [27865498286003104780; 52063092031609430883; 91588213383755306454; 81318649825492747474; 45354943239979611205; 36848489957152783973; 24545653117604769998; 50439007243626680417; 75624361843712527274; 37029805765176559536; 45846944418367943598; 98895091261730657434; 58369928985852489476; 9503589126493108163; 97916867610600829345; 88933901405800624192; 30228250611354934575; 87515737694496881345; 3831362442189057118; 38883640010288807900; 53210414170648131941] 1618;
SciE false 419 [18837076841338098831; 63194650213367975277; 52713632247418587163; 45371407282033097292; 73059941630226217174; 82909579211035281965; 91392861507500824518; 98896768896691635962; 40322068606349668437; 47432148697259354246; 64592534426816729872; 91653081692929924425; 77858071994436282885; 84024426249509341118; 84991802504766160637; 82119317350321221953; 99634297413275935773; 29160638681479891789; 24590001010919802612; 3085340646955234140; 75970239979358137192] 1621;
SciE false 419 [12752701021585892909; 1482778194450119262; 88587129031502383509; 65816442729936406867; 17861580483663149027; 35929785125870885890; 92372967240578058199; 35553112543060237546; 54698040446498725532; 17011564668044582824; 97929145806954926123; 96449136306113558836; 25209914740233363513; 71384536570917823937; 46139450295726690751; 80494777846167467262; 85552419348787808518; 51841752387361886741; 31947430684392706368; 34488775617988693513; 29431852466025458879] 1624;
SciE false 419 [86463312926352353923; 12053236158371808602; 36620734833586160195; 48235481708968838559; 47101515679236150405; 49603943153404606340; 46288717891119234591; 63050103041948410565; 58852714227261359108; 11338408449342271553; 35959608571154399120; 47925144155449928909; 78923221938782204622; 97987157950822846295; 98825473005026963297; 23754593797015428042; 16045403184781341755; 55487081186313592106; 14603580040182549177; 37833898689963342020; 13547959719652611201] 1626;
SciE false 419 [58708589476993248313; 79884147351534458041; 665478952005002772; 73251892080389841381; 88081929146201346125; 33181077401161727705; 17430039448069960287; 71711019965482970774; 3460992960310462834; 40898779337103402384; 73116574219813837002; 80541172881550501729; 74688867696433116939; 333280248608712634; 97602496170413308078; 82429369188173475640; 62694828762466531052; 2175728125506929040; 7315830847283950891; 43989217210485109231; 67199064649644123005] 1629;
SciE false 419 [39921840844355408853; 38321220199043431467; 88452525687363401885; 45811286614665092139; 67895711819416915365; 22563132632789974839; 51852426824687572995; 64763493576528420126; 34353475213011114727; 39811169949230313621; 61719270469473409161; 90767997559454341176; 22788430033574519518; 52226630569053924591; 78369697395881049493; 60051971047957963435; 62632483558477241115; 37479495125344711747; 24974764976153086606; 17912667703129874277; 53695363961758003644] 1632;
SciE false 419 [27186773615006033429; 15396750955548576829; 62936169993094476683; 99697486184586927747; 12136979749022919363; 71865493322929972865; 71211502667612237210; 3603939125615854106; 3994716620060569129; 35811406735425843576; 32130823189711391639; 25913006337988406341; 1118920852864247792; 11366335417525722647; 469763926594994705; 14195392283659373099; 66152721303323001199; 57023536180359748699; 87707814948760251978; 80798526705831444383; 266542857957200481] 1635;
SciE false 419 [18541379605434114798; 68300584151684129397; 80722467935290433098; 48593685577888284723; 53677420188833631006; 5612266446238241494; 41566244819311545777; 24457886483670012500; 31924396734881308146; 22223379393560425319; 5113221415383169097; 97472670322508093124; 56963104021653416994; 22151840754752542845; 25720378997937786388; 90681257537455692453; 96916155928866286818; 10690051675005348613; 31616729795054491849; 54704595213377045069; 20781782229126810728] 1638;
SciE false 419 [12663762270511500407; 50049298975600260378; 70233445599803365806; 26589487249697698466; 17561677988973369977; 13633177982780718940; 68589745211589785765; 85804736468346618537; 71804362969923933463; 86978568125801770492; 91192330226706704493; 91673833830273027604; 8105800046789283807; 5329707235495986763; 31067018855591508103; 62335298898082237946; 6093734499415673896; 76701305294028653102; 89494226450022217933; 24063238530736521782; 26893957262493611727] 1641;
SciE false 419 [86620133930298662787; 30337204993105780990; 32396767902655022114; 85872092787932257508; 64121877444577850643; 61250937402220117554; 29153857247274134638; 46904397443490870797; 99141842714279704892; 86933405980484110171; 51755538750673858738; 39049023399067508811; 91443672320038701240; 24455197490792549461; 4498408972245915428; 78373444462882507551; 5681143976003209453; 88636928211155987223; 80140508918151970663; 36592551550237808990; 71954667675456304215] 1643;
SciE false 419 [59334791742254584009; 30280985420277459978; 37191786013318690148; 67822383559733596393; 41923486049535827690; 87456892120520780524; 68970392214382782227; 35129512248791246496; 62412162259281597851; 61549383096631615467; 48952544044211593235; 79748581028361243536; 16138915539226510349; 56751810281192896380; 81581410145988452068; 71685809457074517672; 47391583623562198475; 91216295824641851248; 30396248608934099904; 40565897811912899158; 64288947357687568388] 1646;
SciE false 419 [40703667135186644630; 38172755998310337545; 16313565205136621441; 99326155121977247125; 88559511429981577795; 93995427994677255439; 93713689059066588607; 96298845402670795096; 68414743309867176126; 20822876804289288210; 69781445214329152959; 75707526585455813065; 80671296059909386099; 80331741852898326917; 23964847360148078119; 13976465287553119123; 31710626365763668154; 47574378935704309956; 33651826545728792534; 42228205898972248822; 82902217887373671914] 1649;
SciE false 419 [27963419321873224861; 7224683370839201893; 52707419295928858930; 64937068568798368775; 48340384352397343945; 81074859032343274487; 23681304383578746373; 67057306791634836231; 42200928653878749998; 70505316364546741000; 74939852862244128083; 35311070764208143576; 20921180393157748250; 56487906652941150592; 14363850136421729667; 84901831652548992837; 71885200313279640022; 12483598328828860940; 318804836915680471; 14810777452593934941; 28353823688625712605] 1652;
SciE false 419 [19238832493448778704; 41770582159137370902; 74662704475599054944; 28676703175333277717; 53258184434449372634; 71779503014252172847; 21892737415902177505; 8535427072644767327; 21834238913868579999; 10907657658808157808; 51558618769223960121; 34694016685775202780; 43193772110492530796; 38863679777223511607; 39482328893858150011; 48012460176953707072; 35057017815536392335; 22188715650234256326; 72219337727797988164; 14989814887384627239; 60307430697774490272] 1655;
SciE false 419 [13255555587986208527; 34379931107645648551; 99242603383687748856; 61358248487804628347; 37994889075335617745; 32056077576819747091; 73384096079556600301; 380909253052244688; 45343790611655451619; 38615376126918820730; 6723888331995308523; 60804177496499114715; 71760508984129353718; 71177075366506999497; 49503324607868265357; 90980585061921104172; 84954285274904574318; 96788025083011402609; 11159123694452813845; 9927982457408008168; 8651819750766623797] 1658;
SciE false 419 [91463333557104838838; 67221524642754975008; 74773963347445467110; 63371914565851935596; 92164734619815762442; 71186935280056254932; 96350262948940542076; 92628273846060488350; 32872155220422616173; 76446095275739863037; 46394829490767628812; 89548824725843891538; 45147511990492540659; 11121820028898296532; 71572939794291030969; 57766036927255618792; 66184568396841562800; 87837373072778678002; 86997953491724415531; 18503078956115256359; 79697556280289704203] 1660;
SciE false 419 [63201163487959443637; 52250073528143687731; 4468808673084817773; 44789992965003687497; 47285831622292691847; 91390172278518872158; 67778031697717914575; 15606137227627797450; 7714659257312027776; 7124251835536245358; 88758827178120431509; 71078237885558129053; 6996930785430345595; 44585177639968722904; 10656901397855102399; 97816331516733632585; 72933536762217519895; 40695624793290066499; 98315585862781571132; 4885627558675642144; 61971011389680185604] 1663;
SciE false 419 [43735205133667934997; 16557050881475431909; 88292415601774693899; 22594675131782551748; 25121795482626542758; 75641999216735059533; 80502397934820796886; 799446961518435835; 45338544206059923221; 4129982270191081788; 35021108407259338604; 71986140616806225304; 72441876103517799152; 4852942926858356249; 64174575767315730860; 78488901409579673749; 32470007439454523767; 62161372356956726017; 98834385417044847223; 37780854270603544364; 7683939881658688438] 1666;
SciE false 419 [30308497157631878953; 3574036260862474313; 54886644012029862872; 16358109866325308361; 53809404269460194131; 81819905457197396256; 92688161768830812242; 354016744332276033; 96919611134799526792; 18162077713242419679; 32669628126230721653; 7086395447446714136; 17402220139737834812; 36963089448312840881; 172981006749801486; 52392808676838713908; 28201715155541984970; 96177831043371011130; 46592229094012079125; 80082132009528256244; 30524970337989471088] 1669;
SciE false 419 [21034097027396523993; 40680381165038557173; 60291330944348724833; 28152528247229764002; 90743726563005374727; 48183014387294993002; 30725584267568583695; 95045687620566599567; 57462210127550871593; 77404481932990239257; 45272721919604120827; 23117958440528019610; 50477140776978057359; 78452384077129111571; 41520048818684362231; 64760609221726067452; 34771990317946137569; 84747414744099481724; 54335006991244382913; 30576999614612609833; 54784329414564692935] 1672;
SciE false 419 [14618697434040584175; 41772864909701797235; 65402475006322363759; 13066007131824685982; 2066889961288735435; 59987194999170020136; 60354281065960165668; 68556752896293786699; 46436236038647855757; 67296114943428216283; 92964541734124863974; 92566981116166973629; 30081612839999749865; 5024406933604732542; 13356433928985631750; 99508623409099616879; 38166533270972565611; 4399453247149139798; 55762829858914846124; 74751014732155763834; 31575108943122461590] 1675;
SciE false 419 [10174613414092246586; 9073913977152450876; 1520122604400365176; 35493940963749981443; 48638555413056959863; 17751087719422334015; 7606579621908275305; 40515500015820475542; 82719620282898907607; 34038096000626038533; 61503321046950905326; 54826618856852213645; 99336802536639825906; 7496987225788893849; 32496078014573999698; 69258001892733333348; 4963907156596905665; 28662019460015801299; 79610929581804732902; 82426706253580411628; 68376275824413233266] 1678;
SciE false 419 [70917055496222958705; 5245180420752582605; 82595254552670545279; 19392768517337370661; 10010731229007010246; 34725081404373668085; 8017859964700678878; 67393035110268714533; 50555753371805386023; 16245529124363488579; 29678147697247810126; 4141533432259929112; 57377513680379586565; 34254000963748590129; 79497663761580777899; 88728273192351333435; 90598432881480432487; 4774275636310135059; 57888179185178988332; 68514142587455469051; 92582642496160235867] 1680;
SciE false 419 [49500104736363625176; 12661135933685302658; 86651487677764040604; 87736152425101484721; 44787490397846893151; 95038106820252820323; 38596466255361073857; 31440338506967562744; 38687915853520159444; 16739379328805715028; 34915347092678971467; 97690790335717430520; 57649504548904951422; 60909292672696515910; 59689369305583382974; 12132334688261230738; 26237706151273341875; 95932444394144474271; 58605949071254933856; 21422871526043917398; 24422684462319844635] 1683;
SciE false 419 [34600573210718173998; 11250134017646026558; 54769389886757064382; 80927570545145937820; 29206455788094978313; 21331636667356721406; 4678929912497390626; 26276796616370326358; 32642853181610591451; 47300826150835194804; 81605827617782601056; 11585862444666483933; 88297003679684561044; 40375595578214864621; 50722869144602784698; 91080501947094600286; 4540156599740065971; 29556778631506987515; 83865558400807198765; 49374587196704698261; 37271456439161571400] 1686;
SciE false 419 [24220401247502721798; 67875093812352218590; 98338572920729945067; 96649299381602156474; 20444519051666484819; 24932145667149704984; 23275250938748173438; 38393757631459228450; 82849997227127414016; 3110578305584636363; 37124079332447820739; 28110103711266538753; 71807902575779192731; 8262916904750405235; 5506008401221949289; 23756351362966220200; 23178109619818046179; 90689745042054891261; 8705890880565039135; 84562211037693288782; 96090019507413099980] 1689;
SciE false 419 [16978501274499407980; 87380440762458905232; 27935339617431691492; 64451158866503111688; 41731607855218205858; 29377434112671943193; 94715950908062469580; 30714024099652919144; 3077848056216317225; 23780515392214830090; 72323979612045922338; 23605182701597843666; 35637339705621214104; 48892304750230034069; 77359711889256586451; 75553202305439320360; 36247854843492450372; 11473511274480478774; 2202829507276092434; 22778109937422995436; 85559103674696583086] 1692;
SciE false 419 [11918907894698584402; 57341069415246151473; 6010608411437047427; 83644713524285184405; 26895588714363180512; 52222958747095704122; 15090597537459853645; 37561244917956349239; 10960649335463854692; 11693921805334810723; 68771433687656237481; 44170838256521686253; 78217412473346092301; 35122397934661483916; 98106517746258123689; 13238348018418402892; 97445994100131700161; 22454404914685296099; 36346386314107816888; 82790233176070942796; 67262490779637001326] 1695;
SciE false 419 [83789922499731048350; 9107717989180444855; 61254577132402443417; 69022336075724846369; 4075988661973159003; 3127399992082799978; 72086900688342771126; 99055551773233135150; 94053364828310898485; 58208270291503719387; 52463178824223349494; 53520992943347454364; 8868409687623028878; 49910457480670231936; 37688819756194609534; 60065586569481372337; 61045338523925852133; 40854466550237631578; 52515095788177952728; 46015339227778727860; 60855310180848119324] 1697;
SciE false 419 [58988105439810658038; 46411833464383033178; 35123222301211320166; 5391724597310291843; 80469496018029103938; 13401689594426291185; 1949178084593310873; 40135108448356127146; 26213568839130872533; 84978622285218618448; 81734077892253238044; 15278779032116607872; 31843360420086612330; 46336962066391843283; 20932929108361005112; 35886172944914886125; 67775918320843799901; 91961544451367292631; 28170627434877278720; 83594798816356224413; 86842138367317076004] 1700;
SciE false 419 [41586614335066513917; 11720342592390038390; 73761871722353980717; 6801165841103755749; 88230994692710518276; 38448191164070535285; 43874170549638284165; 74795251456091069638; 11480566031587265136; 36409928711079126006; 41622524914038532821; 12771539217642208549; 98449569096161061692; 97667558256806249514; 66257715021394508604; 21299751926164994718; 60282022416194878930; 85332888838213941305; 5360292341588481498; 18934333165531138211; 77723707548958538583] 1703;
SciE false 419 [29360149720556958825; 48474561870227367103; 86075881435981910386; 25001623083819251559; 41691082253053625903; 12744422961833797911; 51975164408044628621; 1805447528000295164; 50905279618300609186; 27305409670021862960; 52985502589311204171; 71616706687655399236; 28905395781889709555; 24153296129305212157; 35177946805104523074; 57437624859872486271; 33359107825833584525; 18245019519779042561; 36784366393161467937; 72167639214864983577; 51472937529564728240] 1706;
SciE false 419 [20757625852433769889; 61771515242250748542; 42955648175239210643; 7876147520260210852; 50775595152908913513; 51110307034016495123; 44446441236487552435; 5976451402296208681; 30790032690138530694; 69504924636705457113; 9460750330643021349; 40333011628172367260; 5636114817796024655; 55576380363418784995; 24770808391208897813; 72408400775929847793; 83284889232864344259; 30399228800483783090; 88706547039965157831; 96922520924909543389; 30291366833402262865] 1709;
SciE false 419 [14696399103523109081; 84934232791513529968; 4012598908069361135; 29976312444344229283; 57549121368259510767; 56586097380083678547; 39868080395433187124; 2231327592825715746; 36599343144618079731; 84409486642787463636; 7098211234095259115; 37755772232746036020; 11990369290999585456; 13348077297300499776; 63537732340975899652; 11665147749358332238; 3365701576867955735; 58722653990742518428; 34804235304295331745; 3421144814835956719; 62646287718048802109] 1712;
SciE false 419 [10419746964397884339; 3118371049183092747; 34044932625821177044; 92753205523040058562; 5502327050095993134; 20419543042479328090; 10566469000362129670; 93182011263313432464; 17348934289534218529; 87746326029736311717; 97432631764973538712; 80268842513016939538; 26501171827318706088; 39863786803786054341; 63448252229751912853; 35070589754295057556; 76586282417999380616; 53134361679436445565; 69876202830745390207; 22925591673718693314; 21516217992096600695] 1715;
SciE false 419 [73980203447224978807; 12140434449199958506; 11719021643330357018; 98547759213584415790; 59066522055681551252; 84978755601603229439; 75021929902571120663; 61592279969525370495; 63177433455692951562; 12998914811127813197; 61771685531312124860; 89908781842420270721; 68158319973962813227; 63032886306880985825; 60482590831238581258; 79001187255494908653; 3762605167795602377; 37253967923998763516; 46121040098292270471; 32771700883402722530; 92765147743885864935] 1717;
SciE false 419 [52599924650976959931; 86331848893381170497; 84932224388407883840; 49867456800858519627; 10996297181589582940; 77619895232739896131; 66240592160728066791; 83092111058332538422; 39419155186997688560; 67442228430711875183; 50619668412762920776; 9925143889960812483; 11560565501487560204; 84516382164192380922; 503122081010631274; 99969844138656880052; 30975212274302673290; 31187571193963120860; 20392059509885804305; 11400679328099335719; 48956020045902849969] 1720;
SciE false 419 [37451146351495595471; 48668276412087393394; 46871743764546413294; 43505629242211265974; 50229363593291783053; 83265365405710806045; 74363301618438383555; 78361583073532767356; 74466438493142354255; 20018866642666855130; 65641203909887199592; 58266702449652098487; 97831122637059142865; 84975664100904975216; 46758222921679569467; 79978529026723698597; 24454351139303503382; 70205550690101742052; 46519146371038692665; 24117283681606727032; 27656686272682829178] 1723;
SciE false 419 [26702667348616359571; 17000481081818311490; 25619553304121592678; 93219513649696632639; 82013536242017041317; 38268205534271804710; 61521034053946567475; 27371808731428863125; 35894570645610498583; 95773451916221467708; 15802178387749573309; 51144158846601946221; 92853590440223168863; 35087648503945247329; 34138612943157533030; 54124691196053997099; 83535952362323397911; 86656557642042542083; 40768151362550587870; 31695623264985596374; 1319217312422857204] 1726;
SciE false 419 [19065704486912080733; 81538343492418274404; 4292361059142817172; 75758732745883395704; 83157664876800167500; 61123498751470068563; 37926018314517849177; 34543471434240208271; 50628723440965895988; 94582244668182127943; 62482755368853195342; 99116929416473789602; 45697463574319342568; 43252581031816906593; 14974969641414478583; 80645029513982553929; 28244669986698906109; 7272782156418375047; 55308460072861119739; 40630675011199715811; 4541921161069920043] 1729;
SciE false 419 [13631978708142137724; 67799915597079066198; 89069038157287114278; 52167493913306627928; 95457730386912119762; 93703301607301099022; 81617103094880262161; 80198582075481748914; 12699537260290615632; 9626304937750221479; 69175170088730034670; 23868604532778759565; 75673686455638329936; 42925595437749088214; 10207103293611352187; 42161196102497526059; 43694939040489717867; 98700039241839138159; 45548952095700613; 67550932633007796804; 89747473630164992831] 1732;
SciE false 419 [97604967550297706108; 69447395675086113984; 5734313206175738234; 21519256419275455971; 31477349570290777502; 62915639508275869003; 36378458159342677078; 50221847660449322225; 14928686783680807925; 80924343354291585794; 59294217835307048238; 90899208454695918490; 81823595022370442344; 83347263334283471612; 97082859582257281661; 93874164093882286585; 56855763529906379934; 78692280971568229218; 44326130497005216393; 91664677652335825123; 6591911191981348670] 1734;
SciE false 419 [69982761733563455279; 93393782699036743726; 56911502568828004313; 93229306852620501931; 43269259641898487469; 38510513527433798075; 41183354500248699465; 28609064772542164035; 43203868423899139282; 80522754185027067014; 72313954187915153587; 29774732462016973557; 91667517631039607161; 24559987810681249146; 50008410320478470951; 61007775655313599481; 85265582450942874413; 24222365456614420349; 62381835566352740154; 43823573876724786613; 23826400324650626997] 1737;
SciE false 419 [50247622924698560890; 99256735977908381995; 67662458844418507097; 40338642320181520386; 76867328422883114003; 1850548712697467018; 14569648531178566216; 7541308506685273777; 44020377528359582005; 5415337504849434116; 57121419106923080275; 67978257907728187014; 58417277659086437941; 77434071248069136887; 18706038610103542143; 25603582920515164427; 97020688199776983828; 70791658397849153811; 2990157936641267430; 88665326043488396788; 30507355433099150184] 1740;
SciE false 419 [36128040882858265280; 62365593168116126654; 89149307909136906603; 3303483828210513158; 8667609136052958968; 17030544524429478786; 4675577293917389109; 35822200816306711845; 97950651442890539461; 63393627665986743129; 81470300337877694718; 21376367435656566463; 48602022636883148880; 13575097227361709421; 88749641760664446801; 108976119850403223; 71057874815639651372; 84099202388053541590; 13049923556445071282; 80750369425268157290; 79134788556398288982] 1743;
SciE false 419 [26012189435657951002; 4903227081043611191; 52187501694578572754; 18378508356311569473; 82240678577958130457; 8261992057589224725; 95366415651620520158; 73791984587740832529; 10524469038881188412; 37643411919510455053; 46658616243271940197; 11390984553672727853; 70993456298555867193; 69774070003700430783; 75899742067678401696; 72078462806292290321; 7161669867260548988; 44551425719398549944; 89395944960640451323; 62140265986193073249; 36977047760606768067] 1746;
SciE false 419 [18754788583109382672; 47735226725432443669; 8727188721791150955; 76650904524900641590; 62595529254707812059; 55656896273521831027; 41259185684818395034; 45004020887761140253; 48488142177033336845; 32340899993967038093; 54940862311399068882; 11912899863198036782; 52486281991258780246; 65607104472668010595; 9023714030796127623; 33568571683336741321; 49263563974294855820; 66921577943686354510; 26854476316621765404; 33103131776045205812; 79560451435397479776] 1749;
SciE false 419 [13540957357004974289; 52864833695762224329; 8101030257133210990; 6341953066978263228; 43193972121899040306; 99984279109482762001; 79189132064438881214; 87292903080963543263; 1608438651818069202; 32350129795644201503; 54267302588830127732; 89001113701228982556; 98295095597688839338; 8568329429266303649; 65515121530234804144; 4836508755369127234; 11768293189440885902; 52317379275341547956; 41388931900600914621; 92700461142304638596; 83842645936356980399] 1752;
SciE false 419 [97901121691145964113; 29212747620360881899; 25570448759073115458; 15852320674252843141; 56292418441330061419; 60886337961560369272; 95537424825893111183; 53127689275366417791; 60629011452644640332; 79891438422507576870; 61352597717241823508; 79478052059885543886; 98673541171290308414; 35949021773595375387; 674328663597633961; 46967958301318789902; 67084759759657605075; 24254652160719391724; 87241977641344612716; 53224334058862537055; 14182330119860968281] 1754;
SciE false 419 [70880412104389678018; 2350029277141278495; 6113004901568935591; 70677080168159058434; 49155710951522964467; 79681708684169707353; 61969095573946612496; 87664447035365286481; 12295404291714719600; 94641401417895485654; 32419280747283080220; 36742109691357133774; 17839643808014183291; 99627091764083051780; 19288213952444686988; 10404801810154803889; 53369366065992106074; 47560368164360839608; 80763191812333499606; 76934417858616476827; 92268007006779341036] 1757;
SciE false 419 [51388298775682516563; 6703771225927426908; 91931928553637478303; 98740883121915317365; 637890439854149239; 15269238796023037831; 37427594291111294060; 23556724100639832698; 81414168111493171710; 68615016027974227099; 38503978541780233159; 76638029526233921986; 27933741760810282886; 69729641528960212540; 63983955115522398066; 37543481312362232819; 91192790397844276903; 99481266919161608716; 38553314063941787214; 90777452947496945700; 24394305079915022251] 1760;
SciE false 419 [37307904911145507024; 78666937910023311935; 87542580129940809248; 69485881146510520406; 99463108459334112347; 62485467365912725465; 57772433455346799487; 73102181697064518539; 33906686048944042661; 95814501636309288874; 15353888421332449273; 99039209436045827362; 3879896518348265375; 74223719750025114304; 50452351413869260996; 18856567432774981027; 25605965828834945032; 30023399783311327928; 9589706010421737518; 2304430839882782578; 37710265488018306154] 1763;
SciE false 419 [27122846870402783607; 1990863860586947777; 38143455754466968323; 80116235593513148335; 88509679849935899676; 72326934775018551413; 47500559122037123227; 58045286093765904978; 9950160757582319015; 24357142689596853011; 50962276882308690622; 19101505260005316492; 20220684768839188928; 16460644258268258099; 37478859477882952744; 22908724523627411206; 81515537157563005038; 48227011642467335403; 72571716269576603175; 60275321220594782934; 48015363009789308574] 1766;
SciE false 419 [19745432521653226465; 91049348890507297981; 93368435789251952939; 72724619512077571988; 52435046930753334964; 65454008516213505429; 980407040843025709; 67856968276261578824; 5643717031519928243; 9731999878026508992; 37900537570320726772; 95505895829283870406; 32320658511714929539; 70383349020019291896; 34484609699898789597; 79877551453200755358; 56143311050705867668; 1509264475716220173; 91232209444251767111; 83880433848593001976; 30155184271126616642] 1769;
SciE false 419 [14394420308285202093; 64874975341179820228; 82965589690364673693; 6116247624304549979; 63425149212519181189; 23315972208319645457; 74814716732774565742; 35567729873394690962; 73714269715978027689; 21794627911081325055; 44429491888763809817; 48423798059547941526; 20961760055040183634; 44409461435594063792; 43539280471226217616; 79530735009383350656; 39128473755964577529; 98300253802797124506; 78208280684859538224; 53048836275624298440; 72383129333651303532] 1772;
SciE false 419 [10507926825048197528; 36358731999061268767; 4564880473966211795; 93464860765742321485; 13300358925139002268; 14020659712073341184; 15614743214925432991; 91964442807578124402; 79811416892663960213; 12910078375089367290; 47433529078797581166; 76349372583469997314; 13302084840179334053; 14418906847983666568; 47783674743995138860; 26057436556849845979; 16563785841854141596; 88759185276041900889; 95092044899947462903; 90725650481205737861; 72839684413565451578] 1775;
SciE false 419 [76812945091102323932; 33782330913137874687; 10369276264693008228; 28228132197576370056; 32225623742766106580; 10491022495256124056; 18143772901104915170; 93260076923396089384; 45421457485373549157; 97372672921903274893; 36739097566010318329; 4113913585165680366; 31238240181710931928; 48402209058760602615; 57298662378604465068; 50479861230572374107; 70081274503953775073; 24829644367866295505; 54122848218615953827; 56204505017613943769; 23458093063163451037] 1777;
SciE false 419 [56227075806686901118; 47128666228416924270; 95990310225755282023; 10262992768625902881; 22789156579704790016; 63679428466527482809; 12481241763608797905; 12266376307925937429; 42048506879293437983; 63676796578833197221; 94493019418319553016; 85811384744341278028; 14066391813012402171; 65030417031012761114; 59942620861138468430; 14551258420778977846; 83699492936894163353; 61775299677278128310; 5617924896026878201; 77541697672893406839; 7971324122235646159] 1780;
SciE false 419 [41214446566301498519; 83945312345429605490; 61360897395478621722; 93422773699402786811; 94004451772923611082; 19477021065964644899; 8848750212725248864; 45491253833709712135; 76521555542522090042; 575091892284733563; 68563383233628232361; 35699745017602156794; 62710665198938090791; 81967295683732353897; 137941091214497359; 29666072422430990761; 73151728322743421738; 20181294663444868051; 27117938948787701721; 90138064394230867213; 4542980581598728635] 1783;
SciE false 419 [30251403779665299913; 56215859261545330430; 11038898688281308344; 63372315895361645519; 96399267601325930534; 33096133462418049355; 93094982656140332666; 50990580313942928707; 65166821768211214090; 83222117448936994435; 74525523293483122553; 23603612842919983087; 25629628256020558641; 19563995031859547760; 39901248760951441061; 72374897158064347219; 11093368588893671555; 84013070282968533149; 63304567188410173063; 87561339265365456534; 37534547746893466818] 1786;
SciE false 419 [22234781778053995436; 46818656557235817866; 13113590535886761633; 30578652183090809457; 17353461686974558942; 73325658094877266276; 60924812252263144509; 88478076530748052600; 12397613999635242356; 76168256324968690910; 27276259620710095076; 62848655439546187569; 13337776768175110601; 27879536348416767603; 89327417839299309180; 36695549411177295206; 4653625912836848593; 54249606657981871864; 98028856883481477201; 94857584360043610552; 76587892593966698111] 1789;
SciE false 419 [16364799388647740641; 24058531226125561949; 47251602634412656562; 11305888006754835760; 47972147801613275381; 85167684357829667979; 58440661817665674359; 27519864326630566713; 69124643903731538374; 57659836655176956509; 96075327080842629976; 39856610403505994050; 88216603701376881402; 54119338752434740956; 46544979529724291556; 75007924366626489271; 65025068671847920564; 84727710500274657692; 62549238666242367220; 63415182088992097366; 83568688949159489810] 1792;
SciE false 419 [12060857149433384852; 59431137513654539156; 76124431141562127886; 27732439460978313955; 47355472929788983956; 42468583371720465300; 95370767759619602002; 78582140008726727667; 99044862557050143782; 6295299614865416947; 84107516058581018292; 60574321867383917615; 50015636927914761593; 67285952660544404084; 91503649913406802877; 32480840258203722593; 20623475611151917456; 29244322638702422719; 46498788897020624641; 60736989199587175759; 35790123755530543990] 1795;
SciE false 419 [89009125762818380212; 14601794850770498976; 89798301824728503800; 72665403222019956991; 39483390221842701598; 41418145283297033921; 3836266065992662780; 55936193264403250189; 76951085671030061111; 62459311157706777075; 6713468512327914999; 43038495381293312002; 39115400528010940561; 30570330634817702146; 67296936360942205234; 65708601105543472737; 86201250010301150827; 43823101073623879669; 65161062060012209855; 6238980292953357104; 6131113315815414645] 1797;
SciE false 419 [65777743938722782976; 77590726394719398743; 92760945048474364308; 73699732981072748216; 64078225373941756481; 22808009364356508067; 64735000622768577794; 83336846822394001890; 23966852310891215161; 49057430945545308258; 47461253230610329184; 57905448086775757569; 76706280990200085074; 80491474339130281886; 39132435970736289668; 41158656216996626353; 28002723757612550461; 47685271693408047075; 87254024862349023082; 89110606436492530899; 90130892740387591423] 1800;
SciE false 419 [48675530514654859402; 81417137532092355070; 50643099335871029588; 46537802405993833680; 31417886776716899796; 10877926929623815970; 5903900460848747568; 17669266648571561398; 77735470710059499219; 50302498899703528111; 27121327390651643596; 58850031584214060601; 62762647932748062955; 35563691010956408595; 92958002618344854354; 62457405600577503501; 42722015580633287341; 49287101053121954836; 14567978398138277081; 33941848763004472865; 92696860627886817653] 1803;
SciE false 419 [36068568111359250817; 48530098911280435107; 24526536607880432925; 5284511582841430757; 11280654101547222748; 91660543854851247633; 81374790241488921948; 1892926586591526996; 49401983796154088921; 65174151684680314330; 45196903596472867905; 7207873403902618905; 80607122118166314649; 91852695039118698769; 58381879940193537076; 77680937550027930094; 55757013545249265920; 4621741880363368533; 58394871993020463317; 27250909933386314393; 65188373725264131881] 1806;
SciE false 419 [26762877538628564106; 57409333392170082849; 57598690163047281230; 38921107594468341621; 77770245343348039279; 69612123540299625744; 28980094359184780085; 43004551527250913031; 39856271976746333979; 86559220550032793233; 19536102468582867985; 56348242065695743228; 10810484611679405470; 23954699719026074487; 3119354915623604510; 96839255662120724130; 16171704050574955312; 67429332475229619451; 91928995018821183781; 41620175170572645280; 8969773304145985856] 1809;
SciE false 419 [19884818011201023131; 18455134710382371557; 23495826791144129954; 17918382942689977824; 98083292290107593184; 81421807790442621928; 732210108874291603; 47452381784747428382; 32913210078722526147; 4013500868674365372; 26415324134157070913; 27366743854811937218; 48432190066477798264; 38798341891236373343; 86417680702308338151; 64951566956955698028; 71015576109577191797; 31699994029095607252; 77603243298984139549; 59223790151735475443; 10664541564980467491] 1812;
SciE false 419 [14794304600333561209; 60130620224524484438; 58280895132611232685; 90931276909361343501; 78573969463840049329; 50177824996089310714; 43744764321002472952; 98504572047852086716; 45287428298569559453; 39786044646293727836; 96453001155812860759; 47560857427980081290; 55233549409459481908; 70465966367079861767; 83494754442517403584; 82723965815975039333; 36035588625525430697; 20384795557647131796; 6536813014444199824; 89662499872891193729; 67134418924345467813] 1815;
SciE false 419 [11021756927248503101; 15297312067270740906; 74419266873795368351; 243801297474200908; 83037607250560836750; 47882479622086536482; 25589849419146842349; 97385906175649804603; 75739134082434321792; 78140603261488827238; 53857485861080581265; 80932838783845160561; 46148994310047314021; 98497144943474497017; 3703592059675465670; 69629354532901404303; 35346513526016445869; 41686672690447113188; 6869925695760928869; 54798562405303939328; 60515142098637373521] 1818;
SciE false 419 [82222306677273833134; 60117948021839727164; 31167730878513447898; 47818757679157538779; 87460550089183842158; 57203297980765562157; 62900276666835443930; 80498860070347542344; 3013940254960040574; 14928900330706651199; 49776844523661136242; 93758977327484897788; 50271497552952962604; 788701278319747747; 9628796765178973903; 39434984815444476103; 1684990904082686185; 84982578270735464382; 99249645690376529366; 82797275543567387391; 39442960055834806465] 1820;
SciE false 419 [61420063087923553351; 54708107172314276191; 74082294966249545580; 16320611986330681468; 56633030916620330092; 45330863591631874931; 74886506670126076616; 31132648472549614130; 99051413370455150308; 88951888547037868446; 2483302859174868773; 47437956063631218648; 1152808672055863065; 19389159854904851567; 8092711183588693505; 83557933657137023648; 95358688205349766580; 82981985968239391894; 9539485330711267437; 2049564831044838381; 37163891161708600429] 1823;
SciE false 419 [45942207189766817906; 95721664164891078591; 42213556634754660093; 96207817765775349738; 48761507125632006909; 15507485966540642448; 94815106989254305309; 87221057467111369; 98090457201100452431; 4936012633184325597; 62657510538662801842; 55883591135596151548; 71262300886697785572; 76503091571468828972; 17653347965324342742; 36501334375538493689; 41728298777601625402; 46070525504243065136; 78335535027372028042; 89133074493621539109; 26598590588958033121] 1826;
SciE false 419 [34410713185135346612; 31095526459503417864; 97517953919431240410; 37759655506565736954; 12722368837098373174; 95715106988938941194; 26216515134951474676; 44165328572042866416; 11569752443624238870; 85597073462255059872; 62230475393458438580; 7656809760561517509; 98575463364136641394; 100815587030152900; 16022357626027932714; 3139499447278331773; 37354495784423617426; 44306823602678055787; 45073315735501649004; 12560672795722532792; 84022344351129566808] 1829;
SciE false 419 [25808034888851509959; 23321644844627563398; 73138465439573430307; 78319741629924302715; 59541776627823779881; 21786330241704205895; 69662386351213606007; 33123996429032149812; 8677314332718179153; 14197805096691294904; 46672856545093828935; 5742607320421138132; 48931597523102481045; 50075611690272614675; 12016768219520949535; 52354624585458748830; 3015871838317713069; 83230117702008541840; 58804986801626236753; 9420504596791899594; 63016758263347175106] 1832;
SciE false 419 [19381834201527483979; 38414555278315300112; 44726987545119646161; 14518125964073151339; 41215874247495658690; 79461534011519858627; 66816452149761418111; 50576121318203144508; 87716663063871352544; 962551627615162473; 25451315265365465530; 22812698097636274737; 49947629739849963265; 17106784379394733621; 1524592932860233101; 17818323063679520371; 35264919750576602515; 44405818394208414922; 28162545088021303801; 57374798952190716595; 56725585455773728504] 1835;
SciE false 419 [14575139319548667952; 49687745569293105684; 56034694633929973913; 18117630724983009807; 23794337434116735335; 47755073576662933688; 645972016620586419; 85233243231288764670; 67562930624031257113; 9523838823966602179; 88739389079554830078; 73155148969422478602; 59960617564367172375; 40864301853304839683; 346493885510895292; 8599378943886999319; 25719219652433605091; 61393175432444728021; 55578233906192020458; 78345848812047418879; 86657640262741843835] 1838;
SciE false 419 [10975079907620146968; 23014872413677708580; 47394125059349270356; 62542575935912206384; 85017136087889901707; 61459570403227189067; 6886416928515301574; 14880632153160439797; 1874886759895536606; 16071450634446851441; 45520759976904787049; 28485827173975126387; 75750345025968480798; 68270819295538544281; 30160909895789704154; 94075332344746910487; 40066572398282504633; 98529061100630880200; 23150410131362591405; 46394424155471706416; 53953203117844608408] 1841;
SciE false 419 [82752102503455908140; 45532137999129922696; 77351702947493498488; 95571022556778036141; 77029206102689858875; 41405160840333005565; 69923583641005373869; 8199966434829716069; 52136646169612346010; 45178737783729259868; 57226530225862094351; 60783136891772452963; 69157601495802345222; 6761977488360623881; 1413260614254369328; 25328005879391705075; 101955883050084940; 24909120698756836709; 74554092390473939197; 19813958132256666380; 70807151508548347396] 1843;
SciE false 419 [62477837390109210646; 4376764189343091636; 6400535725357591359; 16156122030367417287; 3657050607530843450; 93760896434451419202; 10292305648959057271; 15690974658296435632; 48863167858057321237; 89109947026715591200; 77206030320525881235; 46391268353288201987; 58713989129330770642; 66105293003712271030; 16567011763762048842; 83122644438940737331; 62576976691702814129; 88806386127561411715; 85788339754807824093; 88459538389853783117; 43459399388954002284] 1846;
SciE false 419 [47233245066922563248; 40908833727143377276; 86438805008370339067; 52614028254957767468; 99964730259293317648; 90883237704445272916; 78980983070613047296; 99462376841672105338; 16140554900691334855; 84567119952196986947; 78367758922317566214; 1071798875085880702; 61587775781774062605; 85175601510806476898; 80524660893404108925; 18040719195839197422; 70908194378927327482; 19537627912436427257; 18855984854634715014; 97675411022729460036; 78055305938049225727] 1849;
SciE false 419 [35755566515660380379; 4567987131447536598; 58634175391336346674; 11728819389003029974; 3273300806285041460; 22398610942265071598; 988604184454076803; 82493019269145783740; 98818400059823340485; 87517309803813119119; 47224393504194397624; 611351748440011691; 88021946266802965392; 62977930343680503012; 39557168296306910456; 36156824431250272448; 99077503144847986904; 2189984329714375433; 69173980534958479266; 33740286144206201247; 84287866595103263875] 1852;
SciE false 419 [27102719418870568327; 31662534245637232741; 72844704946632950778; 98090445096864296720; 31681162011164061426; 84978147094236924271; 29149361971816190217; 29929708606012504075; 66904347245346092088; 29338120831290344292; 55996090276179353398; 99663404625317528862; 44520635270236647767; 61337271200509821283; 39584333568600638125; 92206872918887706516; 33500747383794774073; 24860008121923496578; 73833877245498527283; 88375136897308300545; 86490202879088274017] 1855;
SciE false 419 [20570964038922761360; 43331863492438659650; 97189131054494409641; 24650647828520001210; 72046001966473522622; 97898413644525825521; 91024365736608488374; 93016648831963490593; 43280399559217683895; 1467633710949371318; 5301032519620129229; 83844524110616004406; 59591162170109615655; 61854988841186954354; 9744509178567884337; 57485016545435769245; 89827067264300233521; 59568746164539933903; 26239912829333382208; 46776728905057000114; 31146063985227999979] 1858;
SciE false 419 [15633932669581298633; 92932216254253381334; 73863739601415751327; 34734492349675200920; 14754961494519877193; 46402794369839627396; 65178517959822451164; 94692653112292252851; 893103665005439760; 21115401620321522201; 72028784714911298214; 67721838324068163349; 1289283249283307898; 27009791519302085309; 11405826975711592096; 55688612574531184626; 88268571120868177476; 41272247085050349766; 47942333750293370478; 43550313967843320086; 87671008628773279984] 1861;
SciE false 419 [11897422761551368260; 42021416569486823195; 73610305836677386760; 11132948678102827900; 23228525697329626544; 22612526515447956448; 85200852167424885336; 52461109018454404419; 61779651889069139657; 52068820633064678395; 50913905168047497941; 36936318964615872308; 59881144552704597310; 58354451346188886920; 23579834328516521585; 47979034169218231501; 5772382622980683059; 55008180031723316172; 29084115983973254934; 8941788929528766586; 11317637566496466068] 1864;
SciE false 419 [90658361443021426144; 40203194259489592751; 50910530475481687112; 4833068927143548599; 77001365813651754267; 307452047713428140; 25230493515777626264; 31753650720622561677; 48760947394706844190; 30764413223952849373; 77963957380521934313; 23454750510372946991; 52294321491609031506; 64660919257959318332; 19678337583295894481; 35600240369442924038; 5985555587112804913; 77162331841731669232; 85620963797876202597; 76136431643009201386; 18240398256703071438] 1866;
SciE false 419 [69172329781025348148; 17875037219990559269; 40144734752792527266; 49287631591410527581; 62452042115816288505; 72334585912405345671; 1250866552538328839; 67428035499835014559; 92304602862161322117; 20473247289876024072; 19386499481338235880; 99795974639414558554; 53200567298097691039; 57136281393822959887; 46614571576054767489; 27462983401884951041; 3966978912967070149; 20774859195241263624; 66928795377779542582; 9192097343616020657; 65717423869864443507] 1869;
SciE false 419 [52847659952703365985; 20856528436072787281; 82270577351133490831; 60055750535837643072; 36113360176483644418; 37263623637077684092; 65355662046139283233; 51115019121873951123; 78120716586691250097; 54441560929465282391; 15611285603742412213; 8244124624512722735; 66245233415746635954; 23252118984880741354; 2413532684105842361; 80581719319040102595; 35430771889506841593; 99471992425164325409; 24733599668623570532; 71822762370522639782; 45008111836576434839] 1872;
SciE false 419 [40428459863818074978; 68455244253595682270; 59436991673617120486; 17442649159915796950; 35626720535009987980; 5506672082364428330; 87997081465296551673; 63602989628233572609; 69262348188818806324; 62147794111040941029; 23442633486862945343; 806755337752232892; 78177603563046176504; 98787871023433767135; 82846352503340969406; 78145015279065678485; 44604540495472733819; 40596074205250708938; 7421203746497031457; 52944413213449819433; 57431205554980972652] 1875;
SciE false 419 [30968200255684645433; 67236717098254292619; 27528735621990714292; 40961069256495500463; 97290067929817650792; 72218110815091152101; 45405764402417158582; 519890055226916619; 2454958712635205644; 66005210289057360828; 39357057250937016132; 74417974588718210395; 87084044329293371202; 82071509203950265626; 4460306017559182565; 59459081703764309719; 85167078019532114105; 66496592841222043046; 56484642069816726096; 46755420521502561686; 11792303455115425052] 1878;
SciE false 419 [23752609596110123047; 62670562014361042438; 98414540222066877862; 27817140119732048855; 86721482102170138158; 1791290995174913661; 81526221296653960632; 39798755672359045046; 79182953332591202729; 45425996291706995755; 37786862911468691373; 81478586509546867373; 63293462000568015712; 56348847559429853735; 17621054715467893027; 81105115666787225555; 12623148840981131519; 4502886709217307016; 71523720467549428915; 99061407539992464813; 25244696750073531015] 1881;
SciE false 419 [18242004169812574500; 57730991627029280593; 13982366890547362198; 22963563611954213521; 30602098254466666105; 35775711484294333692; 27412137955830241765; 68165444356371746595; 93612508159430043696; 22087165152030972740; 13020310716007954975; 8975554439331994142; 95009378816436236067; 24875914925642127668; 61532970021479341845; 35888728832092589226; 33694578309873509006; 62658216992678891788; 83730217319077961407; 48079160990714212976; 57787927104056471819] 1884;
SciE false 419 [14028101206585869790; 94395132561185516776; 12452440138830921530; 43858980417592790197; 88433013557684866235; 2011522131422342609; 35879934088033455917; 80919226710049873132; 27488018774601703602; 39385030001911818037; 16012618940610117375; 84402201363846303495; 92862212309839465535; 71429578577818796177; 16518853946517613879; 8098432471879201115; 5311130720292728426; 9584168867370067785; 61588537118370952322; 35272874801859229778; 98838915943019426829] 1887;
SciE false 419 [10801637929071119739; 2684252072112847917; 61588378906899809578; 43771414921546448452; 37093420439417347000; 96548872041195203809; 20627549247785761056; 71307804566738402311; 85165774456443311773; 84326473101472099888; 61329716584269790379; 39989695050161653691; 86503903478576388462; 50000775504920473056; 41719517538818562686; 89235793003346984858; 59089570654625400888; 9379810027874952194; 92423173581145633288; 21160113597431606929; 82105965276124958658] 1890;
SciE false 419 [83280628433138333187; 89695583475990057444; 81846401372197531849; 75477609045123117567; 77990271587907745377; 44391803437615021368; 98038404700428217747; 25783173209553081824; 37628121059177933776; 33157107612349890141; 20852114864720083825; 17320548836746349964; 27945095819823955045; 87505979142936847264; 97657480224291118315; 94007964055805253259; 73580589747161840847; 20318335314915881422; 86582668310632832652; 11144475836197689428; 92036992278923431255] 1892;
SciE false 419 [64292645150382793221; 5644990443464324347; 39985421859336494588; 1068714182835046762; 32608489665864779431; 38670472253838796496; 85285648428730584100; 88304609717774979168; 41848909457685364875; 32797287076734115189; 1297832675563904713; 3371463701968182172; 42373613972904093295; 41554615898347246088; 56191574733152743339; 90574148251081655516; 51604215284808941134; 4085754863115060458; 45241819935808546807; 43003535345544616239; 12652558039328888929] 1895;
SciE false 419 [49698214701245899159; 87663577612797922720; 54008731097267110316; 53226116063331491147; 27806362511713474500; 46192275052217389692; 6725806235408741509; 98259463311840058897; 18749207010790787048; 62852302910315471041; 10703224658210898343; 17506141441621404819; 28354803601054864117; 35621718089422421226; 45836087268727070601; 74713816598086119714; 26690058415157311496; 61358288509187941734; 38371926810380006682; 14341732822105988352; 84480427364401231142] 1898;
SciE false 419 [38466418178764325949; 74451609072305592185; 69802757869284743384; 99597013833018574147; 99322124584066229263; 35752820890416259621; 66005774026206365928; 72652824603364205586; 42311886226352069175; 63847682452584174585; 81684295885455235317; 61749753475814967330; 12546617987216464826; 83371209801212954029; 27877131545994752645; 75228494046918656658; 84258105213331759098; 37891315306111466902; 41299871351234125171; 97900501204310034985; 10187850780046552904] 1901;
SciE false 419 [29811474088542352611; 5199997031036833943; 91597137348695676123; 37187685720589394964; 69474646552651327679; 10208436190072601206; 78654474870309933594; 76305939067607259329; 47791711825422853611; 11981953900752735304; 805329311227807371; 15356058943756599680; 84723628940092760240; 79612687595940039372; 69104776948145933300; 45802082886361958910; 60300031540332113301; 24365769362236386849; 37007400297206447008; 28372888433340277113; 45395584354536078501] 1904;
SciE false 419 [23133703892708865626; 17635197696084583140; 47879378582587844671; 73657644119177370492; 60312325724857430278; 98321746483496338536; 46635872499360508469; 53613408716463233239; 67486368376528134402; 22897996226984122595; 91024935545512778520; 1516301740355121352; 33745536057511981946; 85779445574449470553; 20825306911761244241; 15542416319816880114; 62792824475297719921; 76507837025095436195; 11117742630632202878; 42817361424272055040; 4026973459119996917] 1907;
SciE false 419 [17974887924634788591; 53902548609857721100; 15202277158670755309; 93931989480600816872; 75262677088214223326; 76995997017676655042; 83436072932003115080; 82957618572691932227; 22736908228562360430; 53191743068366663257; 2226374918863428910; 5178166452255929290; 76620281516686809972; 70850629211347238619; 84281263470438486775; 37776457480497715849; 6590024617306328379; 21146589368499153923; 60138486024001221636; 53869089826659386766; 11128958377736237604] 1910;
SciE false 419 [13984462805365865524; 21736182818469307015; 91827371629445847631; 13279087815907435527; 154362774630665748; 22702885679752437623; 32513264741098423532; 88541027249554323272; 78289314601821516414; 95383176107189264013; 96332119686875747692; 2028613499855112988; 21610579019982338158; 76721789526428151646; 23770822980001142711; 24390083919827222930; 57327039152264323479; 2652046528692341752; 56187742126672950433; 22710151885141002904; 3458329617878792856] 1913;
SciE false 419 [10893896525380009243; 36532486415587590165; 40033522499338315304; 65244409408591892275; 53420248601437288617; 86885547944527148908; 57027833233315671932; 11773460227402817829; 49787376074818961287; 24903494187500436666; 87742721236076207452; 8380289916387133017; 82034641056566241425; 67966274041087530132; 41917471101420890172; 5899875373545406662; 91657763499613907990; 16165944245851334225; 24570251116678228387; 48391208318524841262; 24294038772327579635] 1916;
SciE false 419 [84972392897964072098; 24953394041583203290; 12261475494838859376; 28906393387016759749; 16677939091210851219; 37707273967311761486; 84817099219862241070; 51832989773741979070; 8341533383587898040; 54247254662503406001; 64393225641394418126; 25366261347819637538; 99870200241216683120; 30136937520482735032; 86956274591082943342; 6019027913654171970; 74930555296988482323; 26094365117640406956; 91647958710090181422; 37451424884493761845; 49493502424155121152] 1918;
SciE false 419 [66363438853309940308; 73288600746476481769; 58576212361469149172; 88175893235260089364; 9925470430235674802; 33349380968470485721; 22842154490712410276; 7481565013292485653; 73514737572582148369; 66367105891415160087; 28391109225929040556; 60411050112647136917; 95798626388390229516; 95536948203497016060; 67112850455635778750; 14900860800563908309; 15520763686948004694; 46679699156877157833; 35177055752580431690; 87449562834789628001; 33154425393265149619] 1921;
SciE false 419 [51896209183288373321; 42911685783744608743; 81606598066668874653; 19353548509973389882; 72561717876444297695; 42479215917343919834; 62564811737104835; 89050583840394723781; 22088524781759240025; 7699076807086655188; 25601847414676509715; 26441441188090061069; 84314525835721159482; 25909893495134666559; 44482249056307178982; 61652473146040976297; 75937237203193339671; 7303524740677937425; 68108457598517897582; 26385558136805489097; 4126760657533347002] 1924;
SciE false 419 [40634731790514796310; 67899849968672028646; 40797966286201728853; 45053828483309164278; 17415825097255885095; 51761226063280289230; 2248988247590153086; 50226607147029068720; 69595314904117484939; 63528377139948851012; 40446246525691707107; 5203648450274517817; 68718273729369667874; 60887446606690443916; 4529601011088521143; 38873886473350084441; 14558856730100384962; 45018659871950825004; 30828922299639513806; 91259892021118697962; 98331253594848610703] 1927;
SciE false 419 [31857629723763600307; 57233482375438870458; 78385605568382155421; 10522201530914384794; 8854006876248613914; 88580801233611746756; 33763206786110680019; 81777660003270789877; 2562726884828108192; 67406247677719899193; 72509857276142298371; 92879660385015221969; 6675126603825819613; 69335758139645308030; 17951207192693400576; 41677126995106466201; 85814143676398701810; 56094629339609446803; 37769875082917378824; 61947755344557059202; 97891702818361310791] 1930;
SciE false 419 [25008239333154426241; 44428283664719513310; 14532700371179992005; 56759928201767792063; 35950395397855161923; 18535928968385221203; 72504117327096883815; 55695463102567570053; 46511740604590064931; 24913904427010120867; 7420237961771704221; 96410533402236949245; 71739974384003268396; 74928570139621566803; 69091697646264319452; 48716544691158575968; 45864102785972980921; 29034284031593415740; 65149351940090142377; 32628987945477291474; 33844986712413628971] 1933;
SciE false 419 [19656476115859379025; 77520630960469537461; 77422702491747473716; 37613303566589484561; 80057010782714157271; 62369240169150783866; 12788236219098150679; 2776633998618110062; 2358228115207791035; 96182328879629955001; 52032307037952559518; 46378679254158242107; 13387619865826568959; 84493856129742551507; 70106074349963755089; 65491204127250640711; 20849184789774763004; 13420947248832424772; 15207390624910851908; 57846384525145151098; 83002159555957112371] 1936;
SciE false 419 [15469646703181331293; 28508736565889525982; 41631666861005261814; 78801669906905924350; 13704867485996041772; 76784592013121666902; 64264341904430244584; 39485210956912452618; 81255925526668531545; 30195492828268774586; 19649425638868664341; 3100020573022536538; 31436056834405509771; 39796664774107388036; 56073480513421475255; 55841577648146254239; 72108308429552738484; 25362285484831118295; 68368216421804840452; 5125104621289233914; 77922699570538247436] 1939;
SciE false 419 [12190081602106889059; 10864884413920946474; 14405753486472146310; 5295715886641868387; 90799435578964880916; 94106258506339873519; 28240301420691032732; 50314346234047012663; 62429669315014802857; 69794048348675794373; 92283747403428507500; 73242816211541758792; 19171612785511541699; 86159771841996621772; 80985902644576122501; 38003163186739248340; 90021347042487557925; 59185480962046921216; 99874154540382214276; 21638582441575916324; 84603087261584138980] 1942;
SciE false 419 [96179743840623354676; 36723938025836267680; 99661395008265234386; 31783198345604341580; 59407546718032910434; 66498379615021602067; 13815978209252248259; 44980191786630929915; 99570090895466794547; 23675041471052017610; 25118767013050924180; 77885819909064476870; 39264024877686064011; 90800599833353345787; 46978771865705606535; 88844957543372669409; 70268428165226832032; 91973444790550208402; 12007079323615670639; 34728415464033979803; 3518358493898856550] 1944;
SciE false 419 [75981997634092450194; 33011911040410651467; 98732502056529535165; 19108726693027429848; 66931961907245999243; 38533719895867065633; 3914622785309276124; 96534351511438434633; 63660371807418767692; 31703282762131093912; 9843825940310230102; 81529797728160936727; 61018579653371990569; 40732473868349143172; 10113229773907429163; 35187516459264408833; 66512058250529197306; 659021384534664637; 67485592665656379805; 8435448216586844044; 39779503210180096674] 1947;
SciE false 419 [60101760128567128103; 71512421632964825311; 17797409126714862315; 66615002814184697010; 29743181868631585401; 51780172437630848915; 73396466623179637414; 84758672045547801795; 20655354099668245244; 62277296664845695284; 46986466318785392011; 32690070002975300951; 53965696505817244540; 40119386829864172249; 13199564751160776468; 21133325519278147387; 42911038076168595069; 5121285915166919728; 40081103798534196425; 82172439539320193639; 11865587039252456469] 1950;
SciE false 419 [47600594021825165458; 14237837933308141646; 45295548028358170954; 759082228834280032; 15556600039956215638; 209896570603632341; 26130001565558272832; 55928868260073859021; 80359040446937250233; 74123618958557790665; 30013281324478030472; 97090535442356438353; 61940831632607257675; 99774554369252424421; 31254055282919334962; 82337593811268292730; 84385542156325527294; 68856058444812200424; 89344234208439083569; 25080572115141593362; 18197544935087945524] 1953;
SciE false 419 [37747271059307356208; 30690605481113356325; 63719369586488029566; 52801952207465584065; 49936383831685279000; 93566447980488680446; 62021091241487710356; 21951592530238570204; 29024719074421239435; 35680029834136327997; 58300532090311078165; 6592794605788655614; 42019079484657555337; 6621221614817172566; 10084465839355032625; 51893711892335756135; 55917734929966143144; 68802854346736074936; 94049977727292193270; 41588893687307283536; 21030653133524740800] 1956;
SciE false 419 [29971333221090040829; 39568340752004004922; 55593179451671495475; 82324750052727673748; 649488762358111526; 74291759696508012274; 61644746445741242022; 83829564469009424742; 20645626945090464111; 67329943688304244430; 8090622479706996063; 6234678916996192557; 84963149110818098937; 63057249962164835017; 48407065876447895904; 66203607242514590371; 63398681534393117656; 88229466351308443499; 93075682315470001456; 71021581587721983127; 75098338588018644195] 1959;
SciE false 419 [23827209910766582459; 36956830897843183913; 43196577664078838903; 27948176291918500629; 66516343566074698663; 76061948958723869758; 32007573424364287408; 15644503752862492670; 5413273421346918968; 78027305232201874321; 91432044871367061870; 13456569739011973083; 49045703543100388655; 41630513719921043838; 89983617371776077244; 20631867757799099345; 44901951819842528537; 22142425749290212582; 44495167440798651158; 8462157362238976586; 56203179177474822135] 1962;
SciE false 419 [18966459088970199637; 65817637394683174395; 9184475820606755767; 1046748328367126501; 21347009478595460136; 35345311371144200327; 62278028445793972776; 89253024987278544165; 36308965643392147499; 14909734964832691960; 24379907717608181248; 62711429512253530574; 45840380020307909369; 71137888921057150895; 76426959427933757486; 38822966735208083078; 97741953648594652715; 62825370896435009215; 62618153282875726321; 83535877260342225362; 90337730625269958420] 1965;
SciE false 419 [15116267893909249111; 21356657003562489992; 88820027229023584346; 30734258417708599821; 46713566554440581728; 67370213162801927661; 11535588671297796303; 18334660914860999699; 79438245617783541556; 82183058766971655492; 31430786450933720455; 15581009321266063867; 84334782876185403767; 65996897470082549263; 92412286664063204716; 65141904487960842213; 94500337057929938214; 35571820604458702344; 85406668166451953878; 50278094176492753614; 23399171308340156861] 1968;
SciE false 419 [12062781779339580790; 74842612288842867014; 32478381728760820308; 35325938217331462657; 53077426110443584219; 48161430103915938273; 57005399759695641449; 94031059410059077760; 43591720002991266162; 34382080896043381082; 86681767587845108923; 21433645438370318966; 53899156735195952206; 59265524181125874312; 61145004757922437363; 88783239781392752086; 72811268972228090695; 5586312842358044471; 19354521196828659195; 4521919152841217384; 15872538704055445175] 1971;
SciE false 419 [96381626416923250518; 7992472187854507444; 45502270012798954263; 74254246356478386633; 67088634622444237913; 65809826530288346805; 82473144079968175185; 2308164686372031305; 88297842823900216637; 12712826359386614852; 10587323026882420296; 48254827052578848542; 64654262314215658130; 67531538207195735757; 76548588015800274537; 46378085853328089172; 95762039088102444653; 49634639610440775324; 83642624362660986968; 41130134031201326899; 42821584245403006946] 1973;
SciE false 419 [77105301133538600414; 46393977750283605955; 56401816010239163410; 99403397085182709306; 93670907697955390330; 92647861224230677444; 65978515263974540148; 1846531749097625044; 70638274259120173309; 70170261087509291881; 68469858421505936237; 18603861642063078834; 11723409851372526504; 54025230565756588606; 21238870412640219629; 97102468682662471338; 36609631270481955722; 79707711688352620259; 86914099490128789574; 72904107224961061519; 54257267396322405557] 1976;
SciE false 419 [61761346207964418931; 98561576177977168370; 40677854624201569892; 20622121065231350154; 85630397066062267655; 7210936840608772633; 17248790726443606658; 56279071931027197660; 80981257681555258821; 7106379131094942797; 22944356595626254925; 98601693175292526146; 12790451290949393730; 13674209683171027473; 57612335200524815923; 60679077414812639542; 3124314647656046533; 96045877062370448828; 15518193691593160449; 35796189887193810277; 15360071184454246851] 1979;
SciE false 419 [49532599658787463983; 45246384094737689033; 6623639408609659053; 54938941094315542824; 19475578446981938659; 36783171346168235651; 80433530162607772540; 16735815688683812523; 96946968660607317574; 49899316063138144123; 37801373989692256450; 64078557926584605969; 19457941935341413771; 56966716165903164033; 80805092830820902370; 73264620086679736912; 70905700347420149320; 23628793404021099960; 18045591340657714680; 38508544289529435842; 27718777089932305974] 1982;
SciE false 419 [39774677526006333578; 71232846428074364293; 55218782445113556220; 15969698735380887; 82838889492926496743; 47236886590973093228; 39888124720574041349; 75438859998013101456; 74748415834467676012; 32269150798699929731; 7254503313722881929; 86455082015047438593; 26324727374079155258; 57044273081220240719; 14786489543149184603; 69831489929603828740; 90537277378978379904; 14973921103428943268; 2490609846548144888; 34922361064492136981; 34858178003215641697] 1985;
SciE false 419 [31978840730909092197; 28471208528171788892; 1595901085871299200; 88012839637783246233; 81402467152312903381; 75178456819142366955; 63270052275341529245; 20252843438402533571; 22497726330912011513; 90744397242154743503; 78232620664233197071; 61109885940098140628; 98365080808759640827; 89063595557301073538; 19488337592691944421; 37344517903401478307; 68791971012698617442; 93639032567156870387; 49202450316624708490; 23277578295851678133; 425975114585375925] 1988;
SciE false 419 [25742966788381819218; 81419322865178290058; 7284700374126395856; 70850335908415513218; 22028986057611887222; 31018657739409605399; 28432392081649931042; 38803538967914039524; 83610669696384169268; 69549239779934568520; 54477259634707723642; 64693458181779003206; 33183890051051510866; 45196194423627364198; 24688111762117015259; 20562336912238190037; 68877536665222387041; 56379421216561280661; 93107972504882890334; 63738450528160600897; 6842909967241227619] 1991;
SciE false 419 [20748831231435746290; 36423974229333701786; 80671468501545875060; 50705370742182903653; 88555362762435181101; 18201038137964141951; 82316508017809844420; 16475652408138715857; 1790199775285640430; 56856687262627262227; 55908671265574425255; 97342927294513876584; 30346215381147517758; 36028132705443655543; 78698618080266314298; 91973243551263981170; 37715294552169243955; 50041813500548392213; 51645025838935609609; 71773191125697444323; 3715385433596429461] 1994;
SciE false 419 [16744306803768647256; 32394147203072297341; 95301875080747521173; 82919234188941603248; 68564177749285191148; 65388237777337062555; 12129421970372544447; 7295851493367943696; 61344691218655511827; 46883346620940200617; 64018297711318561181; 57055742326672698403; 53289395812586046830; 99674703093293030023; 83609784790774915639; 22822407545870032804; 49436242703600579872; 8883743494942552516; 30777535852021036955; 4220965238437837568; 69098316044912318575] 1997;
SciE false 419 [13529399897445066983; 10974470940082416252; 29803915065243997108; 45398741224664815424; 93799855621422434448; 11233696124088346544; 53800572952061015913; 23495048006641298506; 86366510504673653556; 59481744069719682099; 5326784550745397434; 70901039799951540310; 5457831816569525839; 44537160099380768259; 25956706110946131836; 49640505297062986506; 3144484104509268536; 64778064743913582433; 17668248968432997859; 67410539912657772755; 50231439364289153409] 2000;
SciE false 419 [10945284517033059189; 33578346990526674748; 10911367287782393660; 73927581650753835678; 77484083197730749468; 52288060164387472354; 53124663518217361873; 80707493837372810492; 5270506998280985727; 28520730952403222818; 13409368701553026524; 67958941198160796110; 83415385939604746404; 11130562520399041521; 74098975243755420655; 72559168785323956083; 37943887640547998246; 14805454377826088188; 43993613415462295268; 47635126789340138159; 20137234445709925108] 2003;
SciE false 419 [88656804587967779433; 61984610623266065459; 68382075031037388651; 98813411371106068998; 7621073901619070695; 3533287331538526071; 70309774497560631177; 83730700082719764985; 62691106686075984391; 1017920714466104826; 88615886482579514849; 90467423705102448497; 75664626110798445873; 30157556415232236326; 10201699474418907311; 37729267161124044275; 37345489888438785793; 79924180460391314326; 36348268665244591674; 65844526993655119089; 53111599010250393373] 2005;
SciE false 419 [71900668520841869120; 66569519215468779087; 80357862850171322196; 76237676621967021957; 43980690934213066333; 67365496025877744644; 15121227117521671885; 22605597767085729403; 34342487522407623341; 10925533699432011014; 60467483937371986543; 27269080624838085731; 68064011775857539603; 24757778252753343660; 46873578273753733829; 52698435667671599907; 32787192299523855278; 77118510353377355918; 68078445887513363848; 14799911391854301581; 60973506797313069025] 2008;
SciE false 419 [58383342838923597725; 98054449602960648619; 29650584634339113623; 77104993417037221829; 44112321038581009862; 94300782773012728651; 5078436419427597570; 80355745386873612275; 51486099868194990152; 98071533363938792943; 85899596957146053073; 13742493467368525614; 12467977561996322157; 83703315941235715052; 30061345558288031869; 57591129762149339124; 75023200147213370486; 36220230406942413005; 96879698060660851444; 69617528050185692884; 26710487519418212048] 2011;
SciE false 419 [47465657728044884951; 22218267527207007327; 48805925307717699376; 12586359648051261347; 33563317004366361018; 57266536394459348393; 30428768808994636825; 6329220999528246779; 99358199192842526994; 37332156624882238663; 35736372326159741148; 46072647188970611324; 28336465757903009914; 32150795860224636337; 52039873938888169909; 96521588496627412708; 42193861719684470205; 41247047320844181773; 85263194523317272224; 53799050304800968314; 90915626353287006395] 2014;
SciE false 419 [38637045390628536350; 29485669767146503964; 57528023200482207292; 16645296753513726736; 73120540041554217869; 11814960625089909592; 14969017810521634375; 60151985893615992878; 91477574142973816973; 41988375492654142271; 97289407073494029294; 84703134811822077617; 96665883126933050070; 25770747830222853978; 74160457386254970306; 71168573036254713944; 65545803439823158747; 20575096519167163963; 91604240341980259590; 77392426948107988208; 33605319851575623206] 2017;
SciE false 419 [31489191993362257125; 49030820860224400731; 12885338908392998943; 11565916854113687290; 43593240133866687563; 33129192909448276317; 60199749515575132016; 11523868503297034196; 31554222926523660833; 33720526026513125951; 65790866764897633875; 30033054871634993258; 64282694748450435807; 26003159481631625992; 67440772769797800799; 97002387024547591864; 89419829803455874378; 97268703663121238630; 59157455878713911566; 48074827962708010389; 79388335679034132913] 2020;
SciE false 419 [25695180666583601814; 40009149821943110996; 60114436549248687137; 58237788152956768828; 99572083949235217051; 67833421414109793475; 16322995604709307725; 15003476698690379904; 19348245908043307240; 315949237634710776; 55285347280156469242; 24506972775254154499; 5254678914735555618; 72418578137011406810; 2231670580155005452; 77553947812030834961; 75366581119619993493; 24171262189106930722; 56272483997030551838; 24829059617569736478; 7180881914091852457] 2023;
SciE false 419 [20992962604598802682; 36487475404527521684; 22313494660736177391; 40480272920965680133; 28950392586525172331; 22119905295327701269; 20835887409047504411; 44757840462830040381; 72607516906871382015; 8258130527147558704; 44368128727887835370; 91422196757382644225; 72593072673338948940; 49765978337938319363; 78823274863986639454; 91761575362429192163; 75274496774729534683; 97847921208500362400; 33374619425573960851; 84885341707554474702; 58466780523813043457] 2026;
SciE false 419 [17172243410561820594; 17446754880903512737; 69452438632482193106; 16912863249349926349; 3081421135777590966; 93894082531578059638; 21243755900600858608; 56411913498594973032; 25192948829820790488; 33755150771206703020; 23493129299412249333; 40783356947539002976; 64381133446791260233; 32708570280433545239; 57877438838741071074; 12260968646467079189; 94974538361728759371; 49439599548553296443; 47300438690119499976; 81236209516779560306; 71425826468479069548] 2029;
SciE false 419 [14064067353250131066; 62888892247459976932; 17181547240002916153; 95251635001217589679; 85623683910201847001; 92299253593362430843; 69598636082592103200; 41401357155349282913; 41433025091623227409; 94845468481618289773; 57240872896218632204; 6101569340034443437; 87128148292922042131; 9488319059675073551; 21501622408928937209; 70641733321456537856; 56884146918255853925; 25391032030265149787; 20439059287207870481; 932455594242459891; 19897751877684357960] 2032;
SciE false 419 [11532535229665107474; 63568891642917181084; 38088868736802391246; 24106340700998423537; 48211420806365514541; 57685387946557193291; 83070881587725524624; 33949112867386411988; 99975080575131046476; 15773284154926997614; 32937515774899278407; 33003286858828243619; 5445081600196074547; 49780421628933560311; 99631330375321728511; 95926221323594361042; 38645000472969800218; 70820646264817422825; 50760028615510453794; 42764613587278817110; 78316156539701173527] 2035;
SciE false 419 [94682114235550532366; 75900600388350056702; 76709612329147632131; 63913057155197057242; 72815764820260874386; 34597035041234556925; 93011937835226557165; 82722216641242442429; 68795411521825891569; 25498662911950650413; 64417004511923075724; 17956985110979880112; 43704119937609772034; 95697261573544530161; 48973222381391391083; 18554277066709704157; 99275453883082059795; 59437505834151041397; 41739834933340825652; 25097477551559088479; 52975645190946634657] 2037;
SciE false 419 [77828697901622537605; 47590293519223746609; 67455301334559353612; 20736532981571981053; 52254558682254438745; 57638762803894805793; 11455812900556229990; 30997662079101287677; 20349828270940882869; 92759900913623434640; 1550777708800768245; 27560641761225461452; 42324786588715232612; 73463149013453603792; 74455988797503723470; 37851615748835376817; 87004423091893453151; 97857629795672156028; 67710144315206158686; 15030126547381570730; 17345980346958133688] 2040;
SciE false 419 [64053018373035348449; 30666811566321143459; 76215712998342348022; 84666166643833740407; 4905501795495403087; 60936701787605425167; 73328134017157777282; 2511075891100359758; 33847908666984346601; 95041398451912086708; 73276290054343032265; 86182408169488554775; 34433299362512636440; 28060171638072315921; 42877278780345564416; 12151879761291515121; 10704640204628311944; 7836829321838184411; 60125448771414668598; 70169794148495032710; 93275741825546544025] 2043;
SciE false 419 [52779687139381127122; 22869452730648622210; 84401747510634094770; 82564921314519002095; 40842133479488212144; 19011842272986870338; 21222382430138008480; 38869126534266696440; 87090676741595101600; 714112324375559447; 99579663004778658587; 7014304331658569134; 88373038674710412426; 79121581429771588319; 25730877715004745078; 88413148923304208459; 79220623528613729041; 92057547361194663955; 15943369787645686925; 33019910378359906953; 80859211264250352277] 2046;
SciE false 419 [43543241889989429875; 83867298502785113323; 94631441696273128185; 93116060084478176728; 71194760120577775018; 95684769875214168029; 2508465504863856996; 32067029390770024563; 71849808311815958820; 589142667609836544; 59653221978942393334; 33286801073618319536; 27907756906636090252; 10275304679561560363; 38727974114878914690; 7940847861725971979; 32857014411106326459; 58447476572985597763; 653280074807691713; 39741426062146923236; 89208849293006540628] 2049;
SciE false 419 [35966717801131269077; 44274388563300503605; 57965570841121603881; 57913865629778973977; 91606871859597242165; 65835619916926902791; 97471992507017545878; 96087366276776040289; 63147941665559981985; 32486631843445724985; 83673561354606416894; 15894897686808731936; 96651807204881410548; 23687401665317848860; 15789306618889983534; 559140333785652854; 92539893903573825655; 61677615649286103752; 24339609341791153355; 26626417927333358593; 67286509516023402559] 2052;
SciE false 419 [29744475621535559527; 4514919341849516481; 81437527085607566410; 6594766875827211479; 73658883027886919270; 99946057671298548608; 96309337803303510441; 90064251910893785319; 52523347757418105101; 86366444534529614563; 28698035240259506771; 46945080386990821311; 87131044558436926523; 39189481177217861007; 35057756573822016382; 62262409056040734911; 2330492258255553817; 19507388141959607803; 10528856925661283824; 80520047625904687556; 96745943369751353916] 2055;
SciE false 419 [24628425814631443288; 39338353215051399646; 94230272426883064987; 53460466973184931105; 22189555147090369156; 38755335751835198248; 22144131701135306645; 89373200582220054244; 56689331943142191024; 34311416074590520858; 40161973178934871606; 77670526560428400046; 22944504894385775161; 36848890414736388914; 8627822443124629564; 81153274698401728506; 32729647589835598560; 63752117381542555260; 97117893534447543006; 93870599434249081297; 16905641110154121043] 2058;
SciE false 419 [20416965000329466486; 7811494815277610307; 31516895841886060874; 66618727120770307886; 22895141216937916030; 64528173338271379347; 77557485180241169209; 44590383282660424968; 74595456180864876359; 18044163925835541791; 61494275765337008562; 1788866518595143638; 32420994557445807608; 77447730153816466409; 77752464805350317909; 22876064724975032931; 74532877851973711206; 76850505309298778311; 34510733740057013152; 75218726930992488395; 35314776480317766344] 2061;
SciE false 419 [16946080950273457183; 44483540696680416555; 7159023548765430525; 97293543510239355545; 57002967210058470305; 43558383870765244858; 65372712699600170443; 84010018124608152724; 5914228630117847378; 11976656058443499687; 4040248885229717106; 47484759210433969219; 80909425482680020315; 28281616027667667120; 11534545788440763864; 65987133721729277333; 34862288617138180301; 61785919406717985998; 41643909004247320916; 78431543352723765368; 14311264478663746066] 2064;
SciE false 419 [14082193269677242919; 44265822318941426157; 26449148569024072767; 8350934657008904458; 36869465751558588823; 81697016996605918477; 54124724253367741638; 83112325061549374913; 69314723991627931171; 21752601184566548239; 93057446823625894915; 48059834903870628421; 66135732576107096882; 2022918991831376; 81585207550194274771; 53235308122757029464; 1270561840841827830; 64444099026982646364; 68406088382529523681; 84776612526113449020; 92692660781769572981] 2067;
SciE false 419 [11716384800371466108; 97629164169359266562; 84405691609428028542; 21347977634631408509; 36275395505296745901; 41571918141176124173; 31431770578801961043; 50749454451209079928; 19269850361034438734; 45298164185559368135; 62223795757256744569; 67985782640020362846; 82224929503321104605; 82401683068601203705; 51078892681761636609; 91491776358133848514; 5857107451580400755; 9617490390449561775; 41713865534264563703; 29734141621726389585; 41120293770432284720] 2070;
SciE false 419 [97597485387094312687; 77250937530762690468; 49099411106535477756; 63828653696479632882; 99174044559121893358; 79294078115997114363; 70826648921420335492; 41742955578571635801; 84517853507416874657; 99333707665709536569; 73324218657948682265; 43321569391369622514; 2933662762664801366; 51406019961448026866; 90487176039074432960; 59126497063254958122; 10789705071664738289; 95113694952444849589; 22476499900423815648; 46685399708980825246; 47532047107700931717] 2072;
SciE false 419 [81396302812836656781; 60227281900656083850; 72148908862850588449; 3633097182864013824; 41511153162307659061; 23331261148741593379; 33269425200464559800; 67613624952528744258; 73887889825185673464; 76644312193201753499; 15752398360729201009; 37130188872402265176; 70046674744062444339; 67272620647847654406; 99866304816588077089; 13311498550754635073; 83798614029768391733; 81924821590339004557; 41345400916953462250; 82135623357290008255; 56041727287822577052] 2075;
SciE false 419 [67965912848718608412; 63789780387047830015; 35244338900480241354; 94533636147691451543; 38661812890526895316; 12981603059199230471; 74279970042387907433; 56457376835361501456; 4696388004030037343; 7998000681323464171; 79653252631208882842; 82503707708455891422; 54488973411292141023; 62672638240952791429; 84388364521851044369; 42615101289880120286; 65471842714856607097; 73907226027933068805; 44023409765656140979; 43583245503337156893; 39294842285331851839] 2078;
SciE false 419 [56819503141528756632; 96528256403571985892; 83464267320801481772; 73430119819470053490; 27121275576480484484; 28452620157490556674; 37698054955436290614; 45998367034362215217; 25526180371369111218; 81486328569586416047; 62190119199690626056; 60173099644269125229; 24752781771840229895; 75194325569436533635; 34948672740267473092; 84026224678339780559; 64334460509620123533; 70986440959352045521; 34803570564088533858; 80835593240789863162; 87650488150537428137] 2081;
SciE false 419 [47557924129459569301; 79194150609789752192; 30259591747510840243; 77861010288896434771; 35700507657514165513; 34614843071819595936; 45353271997700175244; 30300633207761174136; 84265412970835946090; 14804057012743830231; 85953129770141054009; 37564884402253257816; 88018078343030272422; 74437650501618378652; 78752039083603874978; 70729950055770396328; 42147943446552043397; 71515651082977662101; 36830588562142102839; 82259391542541115467; 32763458581999827351] 2084;
SciE false 419 [39853540420487119074; 90164698211003812337; 14957537884414084124; 28647526622095212338; 39717025416996870700; 18407238494184821394; 74806041934072746854; 72591930628103863926; 67414416069560522823; 54405799776679329734; 29828722747378203259; 85679373129088230050; 54559149651459368290; 25978751120356201311; 3594208752060047232; 15671698146735592123; 21719976608210612367; 28530115607535280840; 94664033215075082179; 77133370112649454761; 62055778291715855320] 2087;
SciE false 419 [33437120412788692903; 84248181799032198550; 86849374285023416580; 27635274835937883151; 91522584324860374517; 45443673096621065150; 19362269182687034611; 11504629796979141834; 47960695082361278648; 95346466012633957647; 7626298385050312535; 1984994055305025012; 40775126557574409995; 52796172189978852899; 95915541142978379627; 77948554745111161791; 37923060374288703776; 15236766994722100625; 55423123867447993948; 82814897524512892544; 99964797986749602613] 2090;
SciE false 419 [28087181146742502039; 22768472711187046782; 72953474399419669927; 43213630862187821847; 60878970832882714594; 66172685401161694726; 16264306113457109073; 33663889029462479140; 96286983869183474065; 12091031450612524423; 54406090643442262529; 41667395006456221010; 42251106308362504396; 24348784639582236435; 96569054560101838887; 33476785985893375904; 75855370714402511171; 96798884275566564525; 46555424048656314917; 1564513920590829737; 79970430308869666195] 2093;
SciE false 419 [23621319344410444214; 99048285550108306344; 27553871969911942408; 97042663555099958173; 83899214470454362974; 11051228422376985264; 70278281441417428730; 67611330673777944957; 54977353433983301688; 76668557449965133040; 20055522231134942787; 23942279200429681869; 76533180405332866197; 24077327881888660842; 64714574885045646504; 24853977014136329135; 90194366770812511895; 62507861675751480765; 91653111624919960845; 21015756207216887809; 48955131889759389270] 2096;
SciE false 419 [19889150887993594029; 2198656433191193941; 88000360198665855508; 35309922713394164782; 37243138584122573624; 20105134331641421592; 87974312973673474991; 22928740427321029654; 25690931591413940021; 94154925372870642019; 84886749718615621826; 85559399086761792134; 34240937901290273338; 7673110076550252429; 50889672053208434356; 57727048645902789132; 42943656821024135016; 11631619530982746804; 90171919988182607031; 66695266726476619535; 59020221051177405766] 2099;
SciE false 419 [16766554198578599766; 46553467373180176493; 484303647475316193; 54166264847391280911; 53995965826415329565; 20148628241573718402; 79762345836806739417; 60628928180231627998; 53857455331561951438; 49672602089329951222; 73259530012792969200; 3926573430140190769; 25065110650787700423; 99868431794531862798; 7599993540854710162; 59463902008496051238; 63801502700123345818; 58605455264618455556; 53214928550037937727; 69524109850419790268; 50254046346142553060] 2102;
SciE false 419 [14150971743600338202; 89691126462964068960; 9608752278469166867; 34916327531198241089; 33972595157494538153; 3005442235888218331; 96119419886264888068; 45970815384115494030; 76655692299838287014; 9123676163394478831; 98631043330797266004; 83314027975038321009; 24754953389264819157; 85488956434584892201; 57614394548481375377; 22987533295170667245; 41048468278904103870; 88663004243337976489; 71313399696232019442; 17478348713754302986; 61614415116144314783] 2105;
SciE false 419 [11957571123342285781; 44789001861204638271; 28119395675306446002; 91004296763862513720; 49206842908082884739; 31039598689325544490; 50720909803893830417; 84845338999577592455; 99774059993363352526; 90709506358068334613; 2843231614523689774; 8400353638907381252; 81417935613928772188; 38738168187224233910; 33184163393466762193; 75924465634419213822; 37185955695673967770; 89920238585620590133; 80759822743316056428; 63769204663122386023; 69064180773141945992] 2108;
SciE false 419 [10116105170347573771; 10491495574579123977; 50389008741309253318; 46189635062227686607; 53628989100238120489; 45659500491169410638; 96909889694094180533; 49979156793642643217; 77408854754385396237; 76340242378925811082; 62205373945887041548; 87506699178515644539; 88079573529383741271; 37572490286391701888; 14073802230872880815; 92032097926718654893; 72659318518540176734; 18072521843435019253; 20122810040845383738; 62748747145001538576; 4228296934078086309] 2111;
SciE false 419 [85683410792843949841; 25862967516685180089; 45794904038889375607; 37226208977068505565; 83237537679016880545; 69735969160204908112; 6826765708977709118; 74323458042153188054; 54652999769644306133; 85601852949501619869; 80879517321663241918; 97181742042027509252; 79033987793880288568; 55238992725737714992; 55205104895493300510; 84511869439307006949; 86424427852035296938; 51074260013894613074; 61440201045960400266; 17481888318163031739; 7813675031641391036] 2113;
SciE false 419 [72659532352331669465; 38731796454149032715; 86034078624978190515; 5167825212554092719; 82585431951806314702; 75136101847853762079; 3389097321213097332; 69426292419745903470; 25545743804658371601; 50990371301177373649; 59785830688770429147; 28810117251639327846; 36620821649210484706; 13242665831425582313; 68413928951378318833; 19666065284532341893; 48487914818525931803; 85710972491782631887; 27301290486974419425; 71624641293802250914; 73825996426831899599] 2116;
SciE false 419 [61687942967129587376; 11383295189572528775; 76542932752606483747; 27887483605458424719; 13215031727083561182; 63590550468827844005; 9977343625709919635; 45742922264364272046; 24688336490154957489; 68190825234699590228; 50858170254766094346; 4759789546641789341; 56491077580179701515; 50643023290880319384; 31783425679720192689; 38396489426567958267; 56866239680928516101; 47468615645523454472; 29478795623441282092; 43309320458438111026; 61278270966380282759] 2119;
SciE false 419 [52434751522060149269; 69675800911136649459; 40061492839715511185; 18704361064639661011; 26232776968021027005; 24051967898503667404; 33480742081853431690; 13881483924709631239; 30985086016631713866; 22962201449494651694; 23229444716551180194; 14045821114645520940; 33017415943152746288; 18046569797248271476; 67015911827762163785; 97637016012582764527; 43336303728789238686; 25348323298694936301; 45056976279925089778; 56812922389672394372; 62086530321423240345] 2122;
SciE false 419 [44621973545273187028; 51194106575377288689; 94992330406597900018; 59417411266008351520; 58424093199785893981; 45968224681626620961; 8892111511657270368; 30813142819927896184; 65268308200153588500; 16140833433519948591; 79168257453785054345; 21352993768563338320; 22097820967622987091; 24157630897458279026; 64630540965425601381; 86589100626707932612; 84579194473199642122; 171423127189390792; 53443486814216251401; 56147796953611207611; 10035637303531177534] 2125;
SciE false 419 [38017921460572755348; 29217378802221449963; 83733465506421410815; 84223634398639115495; 53777327406217581672; 20364927428745881058; 84776079007931994353; 79852797682578567549; 32408598586530857402; 13751990085358996200; 20651355350624866302; 12192750690815964248; 82827343464414785001; 73782301524634453730; 70265220902542612377; 34973913733955158586; 14461473691166095087; 94546052504365360955; 23933850765712246194; 13037923004476748884; 65750362982608563259] 2128;
SciE false 419 [32429287005868560312; 9322424118294896819; 15324646076977463425; 91342760142039165517; 69372060277503597166; 38971283096720236543; 19713995393765991183; 79014436423239518119; 57344534594310821364; 2330447542811223758; 77615606114083010955; 71000416339266017504; 25051723975145811606; 48236303200513189032; 28936233429868848357; 87932748415063750273; 98135637058564679110; 1747782786223652894; 81915574703152546003; 59321348322818666798; 61285059624165104460] 2131;
SciE false 419 [27694611103011750506; 52761350197023841883; 55687247749738753765; 73006717161301447352; 11043739476988071980; 9681475764599082007; 89035752066276156470; 95678328705446548474; 11572232543541441444; 87590202201560785089; 99483727621426891356; 17634355553733178948; 62994172274774523111; 93593802933238263433; 57511543349107996497; 62894567146464442733; 98007834048014235959; 95492606499434999572; 17555900796492274287; 6860431467687141446; 1537440919036999209] 2134;
SciE false 419 [23678892493075046683; 8110954418455384810; 44112596826026634469; 69920743172912737486; 5442397252824801542; 98277661778732215116; 74625568016666113782; 66804971043156798945; 36894258824727932435; 36889622882334471251; 94558587116319992109; 53077373998441868001; 7860017294932217260; 70522701507918715235; 70672369563487337005; 47274854910227098537; 55296698111052171745; 76146178557016924634; 21010295181000894515; 44365668904872505936; 34314511985776634323] 2137;
SciE false 419 [20269131974072239960; 71742976982197809397; 73760382883078799106; 6252156156013303288; 6258692048418030120; 79325678482594776139; 93479486222266193397; 96385055212942219897; 23581485553967110164; 67577517187278307391; 66542150571569913245; 75834232142666239008; 92328174804461977975; 16367432490778420241; 76495548346345160476; 68467275803154396348; 14533973583060659014; 37181128844806487486; 88384812674936765705; 21977012582570865081; 50973222259824798981] 2140;
SciE false 419 [17370646101779909646; 33483731273743522653; 86112648130798530833; 89558097825703400917; 86963699085494251813; 51982106459583723151; 92411919692482127742; 5501992317491482451; 93109333119749813411; 12713932229497509434; 65726623039835415651; 61489936946264966830; 64725245807423915124; 71526889644597106147; 19256684932817802528; 51876455363303317670; 36055615360682984775; 31664227419999159776; 25945784462420808209; 37334299783263231374; 85384051476669852727] 2143;
SciE false 419 [14904014355327162476; 55529041432871942437; 1284652096225139455; 48240847934453517987; 53214853815354068056; 647342322834464; 35089427096149665602; 68320709408407691943; 75687807816745339906; 74708553852908863094; 93593442568178786629; 8558365899895341540; 69534260902769719177; 570071315064317074; 29122235672357674569; 46909998701714246561; 16935717979466000937; 22167907126359279088; 3061483068757053443; 64232829214039852519; 62459516166982733639] 2146;
SciE false 419 [12802548331226032567; 36099446590836998553; 39403516150657394792; 25938888375695571951; 29011559427389144460; 10400556067055314804; 87741817875592562752; 70487489381822207379; 68715826914584246979; 89574647759648713398; 54996767166065577714; 38451636308010098383; 45729930115479188773; 4789691259640248366; 81616000442555242455; 17395688884772537796; 4447781744361294805; 7342232221542620736; 61829813956062308908; 8876000294860233314; 35752724387438168196] 2149;
SciE false 419 [11010191564854388007; 93045524068119818755; 91887023889565359521; 34307444003098191878; 10949941107554664235; 68944478217667570732; 19457963373009603967; 32619240868367098346; 53095611146542452402; 71034197073297893522; 75297219762816396834; 37068407224888684609; 77327739899312102344; 82119134483290613595; 46189760380597508511; 44960292440904382504; 59825092300150713532; 36314319710526653833; 49173640002213585660; 95633360253579800650; 34747342973196824649] 2152;
SciE false 419 [94797749373396280748; 28121962226511639488; 46147275689157745478; 76387092866675432070; 52278992936045659069; 28611957454117784004; 19533064641612690158; 67851663876640716763; 63153211971730515187; 33604436801094863230; 90309062157849176743; 93158986206291574490; 14791840533077201188; 91045747901132183056; 92693836876944548283; 58108117916186733364; 59094044704297643513; 64666292707634489506; 36385040419058972540; 83403231783322083599; 49174622999224660226] 2154;
SciE false 419 [81715659959867594005; 1841131439253033239; 5378951644053976602; 69445674051074222444; 79064491910871358117; 72463507325449529811; 61637501721070138916; 78088134261664297850; 25038068719631704091; 48367024522543772105; 3846411580065990353; 26903046109823337210; 50750566539512547424; 84081434690775941795; 7102087387926200620; 44689197643752964160; 27739066535104568708; 76342344313980929954; 48563904841228834330; 19893585797223636062; 76188525025331657115] 2157;
SciE false 419 [70520614545365733626; 33088896432075367685; 30342035268818581808; 12531616706077053969; 85432656519081982055; 59636006821862944227; 42493163985283529885; 18190059867816289044; 76607853305042160630; 95040742162955275326; 64819453193596949674; 87117328792777540012; 66797738923599328427; 63762278138139637769; 14629101415780311135; 44566777566558808070; 31938814419795242795; 66283443142965542550; 72110649877980484026; 96168164543003997922; 16350697096861220090] 2160;
SciE false 419 [60929810967195993853; 14988806517313117680; 10215518472259254682; 22027316834050574629; 95413815232486832496; 3525509894089583812; 49514093683284969820; 79716211725793273734; 67789185255556426785; 14115201228793357882; 22404007559267764519; 8869372076959794570; 94513246429989819761; 47890608311352647032; 54239543623234188821; 2505695817506810172; 75595135658703089775; 45268894875522228763; 82303601494575138199; 29489294165155454204; 74927002291688094158] 2163;
SciE false 419 [52704286486624534682; 97465317637475846793; 28836423478504255300; 12053629061453747054; 91032950176101110109; 7049566058387489997; 80829691036041498894; 98954523142811181780; 49637645246056309169; 14709649062906254568; 12379466538766616309; 1172006846570222303; 86753958161941194093; 67925376189320039683; 14917205234097573330; 18667426882143390799; 43389792344778172655; 76657594067326727880; 70692615292807494542; 39008239452859467887; 10811856982310201447] 2166;
SciE false 419 [45641912097416847035; 45604965074054083322; 98772342732384685089; 90438442767218944949; 55234534852503561354; 45504924206563566338; 10198512437211938043; 6094617041674483421; 90986200783084763740; 48138556088476816455; 99520618022571889723; 60414957929129812515; 14928927768241074085; 12623375779951154365; 60718299732728498503; 94165991679936176432; 30975560170577897519; 89385476462304946344; 69219804843571290273; 70981135366176299190; 23563068146680634453] 2169;
SciE false 419 [39571537788460406379; 74039504719204890241; 3035621148977521972; 94710129879178825271; 26188341717120587694; 31252769287090612015; 13442110283062750283; 33384032975131777126; 79585036078934490162; 99736128128709399867; 34784375825569828390; 36479768524555547450; 63443380375065011231; 80444466801217650834; 98142765868275608202; 91741914786504664966; 81255810667891037149; 74797208092818388480; 84813570799376308667; 30640644362474851397; 93429180083172110071] 2172;
SciE false 419 [34348094800383632737; 61466290096269844729; 21434919157312489072; 51808392735127220335; 45531480610460670118; 66327403741194651229; 13667751725698467245; 93377340622414382546; 5879811316515137461; 48170959215719759084; 85792838216594611042; 83664439079314215187; 15068854165556429749; 20625797183456920924; 76387920773663227920; 13231982034686049191; 19330043659729420245; 98123976624566361201; 37618179453858635923; 22196079306628171013; 40696528312193391541] 2175;
SciE false 419 [29848494381533376848; 98714206093658495069; 68726944747704553004; 1821493286825554471; 51066856650490322333; 11838513851098151918; 11977276249631968036; 71644909000878098432; 52509556034051654454; 2760563558460470644; 74153976410220716996; 22504397559924052997; 63394834269868537452; 6023817752424064283; 61981103152313345062; 59498592388142176747; 14697807940304866193; 75769735686748167883; 99590197945403154617; 27988392917459880610; 65065283103296057249] 2178;
SciE false 419 [25968190111934037858; 61881359301482890710; 62792441930502961113; 49584699159538232390; 21428165285926580429; 81299507050455392168; 76420230337179812191; 94331070830763945636; 29683313749624939375; 401690295860609460; 92513959476892023786; 71578825877133926107; 94153505814785627583; 29240721444608935926; 74923559742512610204; 45763775377683693770; 1787092908065233588; 56919670047470906059; 7643472212500744517; 3349901838190096131; 26606796299867569807] 2181;
SciE false 419 [22618293587494546974; 85698663951591597808; 95692216921468079129; 85488272967957800411; 87663931964042051554; 36711870640946646578; 99362020623683616419; 18262362693595396649; 21454166275923322195; 62849872247694590840; 46579658704372952718; 22945157338983649640; 1707703564678281625; 4768668378254383192; 19858420535728483488; 8260248353962497273; 68556557922924818455; 64377032611347159177; 45557464297088148474; 33617764501063573730; 33274519577184653302] 2184;
SciE false 419 [19723152008295244962; 7529234965787873289; 41043613155520165001; 23345774028059201959; 15642948672644668955; 40812751198905475816; 88243681983852113517; 52724780268815185878; 11508032992605136954; 58805088599989683212; 88617462390213214770; 29608177199593742486; 9489117508399461577; 4158278825837822143; 59716542707155237601; 60802936564655297622; 65381318508790441693; 32136772437094722802; 74126108867060865469; 62114690644927436292; 85015381071305017679] 2187;
SciE false 419 [17218311703241748851; 89173022125132813381; 65531074284769104046; 7680860726495683310; 34356294191218795998; 7129531796644480388; 13836734371902895100; 80128733174675657271; 59446512802544284561; 35536842347790993444; 84963044666656136494; 46847938695245337190; 36083999584832729956; 75730177414956418731; 36032541783346522426; 20380963620944074824; 57677891058174055598; 26955402337583693006; 79312093040944135554; 97926124933021651883; 65818427675249280434] 2190;
SciE false 419 [15048804428633288496; 55337221337366078895; 56674158924888196936; 27113072274957227213; 24027401123125227702; 31431210790267275859; 23293305841043130318; 10032512794666524455; 37356252189423704706; 62459200211969328270; 79857701038657463296; 16545098419644424704; 37537415637143805982; 20588175060671909971; 20892441518644860600; 50212962204705121396; 68010476784844124592; 88759021643048147687; 93718769317785174475; 5187433191460923746; 31725305788167871099] 2193;
SciE false 419 [13167703875054127434; 48420068670195319033; 62089889059277172319; 23723938240587573811; 58523975982734574239; 52502309441483866376; 82881642610912739028; 33778448695333208898; 45186720665745741618; 29651800185473162236; 94875488408825280384; 14476961117188871616; 32845238682500830234; 43014653178087921224; 80780886328814253025; 43936341929116981222; 9509167186738609018; 77664143937667129226; 94503923153062027665; 67039004042528308278; 2759642564646887212] 2196;
SciE false 419 [11534908594547415632; 60815980155091099473; 45190742815926802951; 65182169898754714658; 94867002960875487033; 82392023070739866946; 10204318927159559388; 82389921057111890995; 4383567303193269657; 62774976962474490119; 56710927846130945616; 51081817938657451535; 90372429085870727285; 36080836184005018992; 93164056424041285650; 28488235529906475550; 55530030455583021500; 44833790089396405202; 80385436682082336235; 12726167541254798051; 55217446886630673198] 2199;
SciE false 419 [10116114837418083509; 79735614596014894238; 21732281449567806188; 59864763001207884755; 89798361596687802128; 66357804233038863311; 73149187699118933583; 99855960767087128402; 65344388524900497489; 73953654796090127834; 86035483721056839305; 67998754332202584996; 98756620308308627829; 26142893333372401656; 80104877483884207515; 29984182559727979057; 83699836709546309855; 89319233908400647362; 85898027970186208878; 20660848933680457891; 21125700919575100394] 2202;
SciE false 419 [88819488272530773216; 2078696153010771411; 54809431127205338335; 89612619150605228156; 78429614818918902689; 66621521166081219877; 249867998264236867; 50735335535024987375; 29723731248626367959; 91313089109671322390; 7391547070879049103; 87029063036738696273; 55083126306949752340; 91534603467009686546; 71320824308503341984; 33261122874411656127; 80884566309816600534; 74222873715757683845; 90184685578234913950; 65402253637714420284; 83483654073869381462] 2204;
SciE false 419 [78072330191554549656; 88227173918496468070; 75077489960813492397; 25269492233381995549; 81339631425829715464; 21660317104985392271; 88519633970474264206; 53896359935286963902; 88627159767542577436; 76364205327401092380; 87497169875302684162; 30198546409293314024; 45118068023808832307; 66458916447501514474; 56091004567174437604; 22836527006607845736; 34397533786328791870; 3841905996151004100; 54772338623268489362; 62488580947550975430; 36982131930931186305] 2207;
SciE false 419 [68703650568568003698; 5639913048276891902; 26068191165515873309; 58237153165376156083; 83578875654730149608; 51061079052387145199; 25897277894017352501; 75428796743052528234; 53991900595437468144; 35200500688112961295; 16997509490266362062; 82574720840178116341; 51703899860951772430; 74483846473801332737; 61360084019113505091; 72096143765814904247; 98269829731969336845; 63380877276612883608; 48199657988476270639; 10989951233844858378; 72544276099219443948] 2210;
SciE false 419 [60527916150908411257; 98768763395531941765; 89166076416819484385; 74206931938696393509; 85932989451817261805; 9784810645153074920; 54715501824629287554; 4552769930629277374; 62966864424580409435; 17411641106227518901; 4474805860924664977; 34948329060196920496; 87651135777498511511; 48620268743418974141; 83758234020838997985; 80616702657682930642; 47275719993864985761; 338552880695950459; 7263898687847594433; 5582147037017320231; 65711507243412330118] 2213;
SciE false 419 [53385622045101218729; 54514049314859172637; 51644479399634785228; 22450513969930219075; 69592896696502824912; 9630202989025012079; 92259072609323031622; 66815543078815022644; 42336774422479921121; 82357067455692671670; 72146778769335554510; 2224426231093683878; 24508301755753687153; 13083077031695535193; 10074762406379996223; 48103931744076344826; 66097185034588917441; 20498603640773828304; 90206758642681578289; 95523453686649276444; 32157549388689675164] 2216;
SciE false 419 [47139504265824376138; 18835905545020649438; 92702075309877515356; 52223803835448383443; 83950527783011994397; 38103469239309085666; 57164761114032236922; 81598124538593664995; 2583371815049770350; 57021290563376629085; 24705605653323294632; 34964168362055722864; 49040830450330505756; 21452357018987157575; 50796015204833536665; 33375771730019412481; 94163814385542014100; 58400267014803290393; 22852567881487833630; 3047209605311311100; 33595116110212983170] 2219;
SciE false 419 [41671321770988748506; 15850940501798254104; 1148634573931723575; 16565842590536370964; 35412266560182603047; 28483466807549231729; 24933648824804497439; 76932742092116799855; 60283700684503996989; 90406820858024940111; 35839755397537792454; 99708324832057259012; 20952094118092167088; 49363883604784647296; 74903677441072846412; 15504182209337160634; 3640811916819140464; 91625836041086108707; 61401670007235244928; 94693733291095199012; 69698082641428277122] 2222;
SciE false 419 [36879119767325042427; 95028082344091454882; 5016541597929575364; 2160770692624688303; 45339855905761603696; 84707868124681070080; 38566279209951980234; 19585476751523367872; 20851075105786037336; 6510036459352071998; 55218183526820946322; 67241867476370674225; 80542603294511567873; 31687036990234412857; 62289754535349469074; 75721201255263387161; 12222118546384939311; 45088864896361206206; 23840477956403191762; 11803953962619251126; 23682803137664025253] 2225;
SciE false 419 [32674900113849987591; 16394880956865029025; 49644655855765603772; 52314442833665473836; 85971112332504780875; 40651171158467428091; 22169723380017454487; 49752732401849703934; 77674052543726429079; 75367892302985935790; 71723310604763358441; 88776294584064417364; 6360746518937249135; 75874714773347689791; 85388722518319629600; 23488984312163361024; 75428797032097056229; 94548734298176028698; 72722663469373227901; 23658303210880656497; 84582963579970326374] 2228;
SciE false 419 [28982636400984938993; 36242259408739280745; 61534809744064090546; 22802910793461275293; 29456376638931740636; 48557588817560608716; 91364544638075482130; 41030673640440687390; 14696884606285342593; 74151320472748525046; 36618576506425098937; 95444573296065138201; 92441982162297339983; 41800872003959400845; 37439796873749511455; 40834729084888901228; 95705342967470088875; 96164727322482137455; 77105002497334053148; 39684914948051142313; 58925088695433679494] 2231;
SciE false 419 [25736581124074625826; 10583126354960481302; 10642911052728912405; 5048984784593612460; 44557262455371385685; 19919138869993820540; 61931715638611028131; 80435238192711330402; 45050833530381384223; 24246372579800690241; 17317295937705487856; 90354781086905842723; 30888480160120037905; 27519174339515947950; 69246539623889566172; 40261239427381344291; 31386344555113438921; 85394277862364138060; 72469242217632639195; 77640204473869414374; 46725478761545107391] 2234;
SciE false 419 [22879820619302342359; 40808399329559867877; 57261547925876003128; 8988547473503721477; 33611406322825161874; 14208114455424506460; 61057295202725204009; 17406926753320372727; 77850191008509050574; 46255025223442813624; 40295076088620178704; 78725400386259294181; 2159858862346713697; 78964545987829677728; 16560173725637824327; 26592241850942015074; 97802460309495847201; 52815513019641718735; 98425156331475416245; 4522141777269909378; 90138950619013600470] 2237;
SciE false 419 [20363040351179084699; 87319475403308282411; 3962777654029642783; 99999807251418312114; 82914151627314394067; 98645221865327810749; 94340992730425431568; 16492164810455131727; 72286669997573055011; 27166972448864104125; 71862617718871959047; 26065606343770771821; 10922274387488575191; 3278445929168413178; 6738554615817663651; 26667095247338393416; 73044189675451304009; 36005806587481129675; 2598389135013120458; 9024706181770219347; 22223666050922104419] 2240;
SciE false 419 [18143468952900564467; 58701652584347679628; 23630834889740411720; 54399828261013716094; 31276509099937125114; 57592892682007079378; 19957824522809059527; 23494518846115522369; 40107422967837592015; 4305772451937916776; 1529592387514915511; 10924455252299757692; 60831746479252320495; 21021095322889056141; 65804052162693538313; 27860381865378508534; 30682373000827111872; 33981173669445686540; 44815164719296690328; 15841013207957265438; 37501286451371595037] 2243;
SciE false 419 [16183974305987303505; 8761874105238130228; 38678704721648447254; 72524646808824234756; 12698646117143915602; 20172860272350314805; 35402379474345681098; 29357110810735045953; 50575821287311132077; 41840749027128621764; 20564396409663304635; 90944614085051383861; 80661917859493069881; 72750817028017038078; 35897214529122636175; 44451460623917629612; 60168676716737783790; 12711206913145552394; 7975126929612647772; 71730183781497880771; 3051147514623462773] 2246;
SciE false 419 [14452289055246662030; 4324353575977650293; 94940083316432063398; 46964509600280041637; 22139890982609516632; 76614364223208831121; 18114324870590693220; 77615899953986396036; 48064208409568840945; 13463788881225859235; 43564005993829331039; 86713540377950885788; 59331092648527311404; 38266479606019215003; 97456212574506514104; 67195154337158443244; 5330628308046840924; 58351107773438978287; 91321788348144094461; 3655054116877607528; 53024674730558752256] 2249;
SciE false 419 [12920346415390515854; 85865972096924019362; 79076434484890264678; 23186271582650357223; 67593062538452907869; 69293241615548695022; 33594206434308079739; 37388614558863838056; 61369402318154543804; 95036627259815918156; 47946221358483421949; 64121905097888091895; 241996827783416395; 51810232767781178213; 55325854041608823609; 57672467977419648260; 18365581707393875786; 57765890349454446589; 39441678783240820448; 16667618380488581130; 50604059209119524517] 2252;
SciE false 419 [11563710041774511690; 9850045026746997329; 69773408863976786887; 1751713066472069715; 18995790971915352543; 37517451245916082044; 99066814758705731366; 73962810030183135060; 66925615074748316705; 43057781397535246750; 4911868115842662644; 92889105062609842246; 2716587160866157673; 98870158327164154501; 13016639367239897130; 57116858839790585192; 86437195628117518828; 98700471862761729697; 50800302511000534301; 10917518450537280111; 80290632992161974443] 2255;
SciE false 419 [10361084197429962474; 32825640343965309607; 40916974342123201050; 76769534907558974464; 81020228710836155878; 86415636316340809512; 31163866023800335304; 59870677787044089014; 35965351106974491768; 6579772132191581088; 4401033831795025729; 85628638136098418652; 44034062096136077275; 89387661861139082433; 1262908873046947828; 99176705520452364332; 80647727282793296870; 77235622789034509808; 96717071049856478733; 79382096531681402980; 17540407160977129101] 2258;
SciE false 419 [92938925250946763394; 72445993885368827178; 46025259848845113425; 38622728120804000949; 34751451536200318233; 41148257757577061325; 43539878233489007682; 25039979749785478458; 80609199429561191159; 55020556025758482359; 75477273471201380796; 81088884080802815312; 38985537002340613164; 76807326894417569424; 12328292591231122026; 5615048518457708065; 27410113726655872930; 82803536417639552986; 43552127317212614242; 13057405889182184732; 17337452233964848034] 2260;
SciE false 419 [83459154875350193528; 46256502509061206806; 25730683344262911855; 99683209852481992852; 51406803479507885773; 60351135466304201070; 24098810653673128898; 66085901815307359656; 787061087745949661; 27608459311131117159; 5978591577138839955; 53617817904560928150; 52609012228101870621; 96172979551186977342; 86270806746925547579; 39842313569575021842; 61614282126536973891; 88357575703040318581; 81909810330856927589; 43325550488485601889; 49169032106100433535] 2263;
SciE false 419 [75029780232939823982; 8784595755646024918; 82531884326492357758; 54115205657381311574; 41014716328077589310; 46955670784207476762; 14664830777652142879; 89611225731961316330; 75107567917883608745; 48720004920706874325; 99474753827847817120; 2702418296200274407; 32295501993063581689; 14359508616517092631; 23357455265486067273; 87918239899047944636; 51191239631756739528; 80333460557033246405; 5536919487440377902; 90049669889148556098; 65302959863384289748] 2266;
SciE false 419 [67526802209645841583; 87906136180081422426; 94278695893843121982; 68703685091643180416; 96913244695269830379; 42260103705786729085; 93198347699886928591; 90650103158765184697; 67596811126095247870; 93848004428636186893; 39527278445063035408; 2432176466580246966; 59065951793757223520; 22923557754865383368; 11021709738937460546; 49126415909143150172; 86072115668581065575; 92300114501329921764; 54983227538696340112; 61044702900233700488; 78772663877045860773] 2269;
SciE false 419 [60841648790890903267; 7503428698253361606; 67545105000352652906; 40102020267570505555; 68918833470438117171; 85976353438913842906; 42471711277598122661; 30775742946047431412; 60604726824611818331; 71557051990201204390; 94914077879001794902; 62991390996388802516; 89818422566175258391; 72654125537133710414; 66730560474782651952; 38862900734137978305; 74750976217391540083; 90662403165698259509; 85939888012365402441; 46201277313110564140; 39774170153218320556] 2272;
SciE false 419 [54879167209383594746; 90168092685824532169; 22125684710318092921; 57372022281348596011; 23164787790335181689; 1750670801900286301; 59509483572393506640; 49959720137334783134; 17065463595799860135; 20744460895161486360; 63612498246859619002; 17218234678742699870; 24216217154690083069; 33734021234494606794; 2990965548253952061; 5454336462192456431; 78425380548087169155; 68377487655459830077; 89317778987153593002; 19873552136425728854; 63876301478202925142] 2275;
SciE false 419 [49555887990073386056; 45221787695299552548; 80679493293417237908; 18106936120057782198; 14217803374672669065; 18280855734115958530; 34037063665871336496; 37113627284013309170; 15610113627007273702; 9232248188330822183; 65442085916914235958; 96148065914904657982; 82867244090685145011; 61161821174748629935; 900841890073318711; 13225265825359788157; 90118118634922713747; 58244871352880226560; 33753954425399694480; 98545817579192433155; 73880300234817241403] 2278;
SciE false 419 [44798522743026340995; 3280496076550795504; 12134261937249183068; 99568670252532235107; 12052894250704092834; 92525893583640826511; 42769505553947688192; 71950719064748031489; 82111542718814575426; 69145952362251063254; 2359645668890469306; 90117851587073810816; 47711988657979371090; 49690286341972761461; 24814361068626280114; 86355640306125248494; 74266779245970133227; 81453363703003724810; 54513574800561323810; 81085419091589959572; 78787791412274786228] 2281;
SciE false 419 [40542663082438838600; 50468848949278469931; 22981507053210510677; 44109646578541672771; 94407869296887204015; 60735933693194947992; 84206402526322657814; 41115400753596968498; 28810946160527190761; 15577086887837212244; 89135479330345874722; 74556655686301798788; 91179349735471330836; 89969709139485349122; 42956996767106783503; 95151854477043349887; 74211435217602970571; 17215294151218370953; 54334785194507998048; 78382304277888913413; 37302951228108681537] 2284;
SciE false 419 [36731652752689587772; 5724777148046293757; 69421245390208722673; 76163339800158755531; 38133529582979806838; 14026755926034622881; 51491000688848327979; 85650553082758853459; 44902717221437634829; 60712840720380514293; 87156744273293362498; 80748330051789429702; 75408490860337025738; 23112556480373726304; 92119039070998745854; 58007580156201274998; 29435560307148291337; 48197056501003844083; 91027315386224246232; 19814367675767355552; 51596473812666465472] 2287;
SciE false 419 [33315609046689456109; 25592372873277988438; 22865069568919311465; 10180149198743991266; 96287111331762684802; 19322267624913402953; 53402337624785433477; 72985051646062280087; 72026764519843934790; 45366546533385126464; 54151167055877079786; 41838735356973012740; 39795501210325682344; 57563088727698969758; 56351968437395862490; 10412875201674556423; 45298053198583500243; 9614730246410486584; 10661775055305391332; 60371631481920991486; 13198001748088484183] 2290;
SciE false 419 [30250573014394026147; 20437874568936413501; 91161483168578734810; 31243575472459544070; 40228697089240517800; 39144619003421369881; 80889322563305173597; 77870426894624550319; 65000302184018292789; 73192824252313694829; 80369259686736388446; 6789571704131495568; 28134315098975719568; 87467284564750664540; 77567587341155443141; 1454890683120497232; 49530632304313818220; 73130175063740721818; 36880891750217295330; 417441385584260269; 40783785587264343638] 2293;
SciE false 419 [27497770870084169767; 80878027983163199873; 23765788200238069942; 57400410104465725559; 99567885654119630680; 55582458674110025222; 56428394210044402800; 38084218047213716240; 56185274685272628145; 86632277245353148600; 29155657055243377097; 47571720679055529471; 56774092424968929088; 10707761669358354067; 56508936893110297815; 18222495630956531984; 33823344764621260762; 64475329132940316132; 89724730600947521454; 97379454219496092584; 89172461098823288367] 2296;
SciE false 419 [25022971491776594488; 70599005464678511884; 64626867262216643647; 74234373195063810259; 59606775945248863919; 30580037393440122952; 53349838731140406548; 34656638422964481778; 91128599963598091612; 73835372293271365226; 26531647920271473158; 70290265817940531819; 12664424106721725470; 17744063119116102201; 48423132572730371011; 81582471024170444105; 74779243735805347294; 672549510975687680; 93649504846862244524; 2615303339741444252; 25146939599929192414] 2299;
SciE false 419 [22795927029008477579; 21115693978322124326; 91275076075879362363; 9327513980703131146; 49201772886121715030; 48758414065423952009; 75801703084068910365; 54372197603320642900; 58818154566837861459; 20464024159170213721; 12770331255367312047; 57834432160143824487; 22437290361223491903; 33164841501514769105; 55213473773757367991; 76421631103019274580; 33623891043318671384; 84012692604498851477; 33314698915491504761; 38782541342504455713; 80108861975535494289] 2302;
SciE false 419 [20789885450455731552; 24057512908229777386; 14442869381201978475; 14106692750401255605; 60072016872143004107; 80467673627666644232; 89931153212670846253; 37587444214228426325; 33642156964956129650; 79463190033163234913; 66846542104894988587; 39145002130051167932; 34862808809435824615; 83846335449381469424; 26354688081666719608; 48896527565953578417; 26664988631506628302; 97419575655302952547; 32783005410928252342; 38569677704364063610; 98659282121688370792] 2305;
SciE false 419 [18981165416266082907; 19564509285213786753; 54986339745037406347; 80379410481116346367; 91345751404266562750; 42566986022059646184; 63707142883168482629; 33217336567590553235; 3215289309004946371; 17549892500278033476; 17930892941769124580; 28839386944736716322; 23429744443014907874; 26051704265285281584; 35261830218561715002; 55042529667715617094; 96445134620565551640; 61544072573291595675; 71030883940177494388; 59814115744084390076; 83075924577101482533] 2308;
SciE false 419 [17348785190467199777; 17681961486685401092; 74457514526964189401; 89266781179740340580; 27290016783499638353; 88906225224162516612; 75828328595215993123; 20960645622777765656; 81938774428430520983; 25440601745254122597; 22788836148776979866; 38359199667489358718; 52214786420915625797; 7411257698470747368; 9829312819765407512; 33108872116292074024; 79750853043196914199; 52251282331988518447; 59922227921322229871; 17870101790093132530; 22331395063470755035] 2311;
SciE false 419 [15874138449277487796; 11678994760317141999; 86128625792172233302; 73179104779462411630; 94970365356902169093; 80849196080108702700; 67382920664622633707; 73678990744841655575; 98973978602013926699; 67778150596907522176; 46351785076130936577; 74098667695752763227; 44776529575137797604; 32281300794100733841; 80993821230085347873; 78294617986407247732; 68972030534525176492; 56309923333769494379; 55328838548009840332; 12851143137935216265; 15433226483075740857] 2314;
SciE false 419 [14540710819538178821; 24297959200450502071; 87293821225629765705; 30232059977987569053; 94992854666922386889; 92857863609379571673; 81722755328794332476; 28689955522274956507; 60660164399444756856; 90484785946767290313; 64058235129735937905; 21074379609309531116; 34215301090826222605; 55969671527396272199; 9790340246758178652; 38517870075549038923; 14378379969625061667; 18779889773732856851; 67081216109977013744; 22971647114348658098; 88136835458497378625] 2317;
SciE false 419 [13333831821516509979; 7981228586813110399; 90748434063902495151; 76222798999814600822; 47208447729567828778; 6450660929801067224; 89039766636504402880; 75508689213926135117; 47525370754290842037; 78174548713185605217; 60841401613967855059; 7825206101736840033; 68575431100287646129; 29824188790622381606; 57277742006277249824; 23720886859278468692; 52284974432146181548; 81121158922513029732; 98213475172848921603; 45865000403857719476; 67421478115442096199] 2320;
SciE false 419 [12240457612152156160; 79526767842694435347; 11507062470662490549; 31772529481829803555; 2937355015743266818; 26321706733557379712; 44938505772311041844; 53316976698384192037; 84228290352438992990; 68364235718704385589; 76452406681622490944; 23383539201394419150; 92352245750064059146; 69578605309791346314; 83380967161762515338; 64975774136817634259; 73597606528710194661; 80869223890866961294; 87759970208675310031; 97504070370741386479; 58692916909975844311] 2323;
SciE false 419 [11248980545567831511; 77085099647436186083; 99874990410538828814; 82298954593801589467; 7199429259468062205; 98389648488139231955; 74098486804753847455; 12598301585815072482; 77705798833891434558; 43826732625489330356; 99359761740411069177; 75089472526081471199; 69871713844308870355; 81342738279698247263; 33227108821659751596; 21912736431735405884; 69736200399884668894; 20218816755706737429; 99251412621772609919; 38506240670711334174; 74038790640267800922] 2326;
SciE false 419 [10349062101922404990; 82918291675641291197; 27884991177695722509; 63715038226297462309; 70623474918710617229; 50518476609088093399; 28170607860373539658; 71590437458949866684; 15489334927180119793; 76320594015450183928; 43410980801178183643; 53082314723994953503; 72281976736764160727; 34835319217322387482; 26568940115926971468; 52159717517196573413; 92157304367893895382; 66601311415250198435; 59311299612030801125; 83425741417054427440; 76115687389046376848] 2329;
SciE false 419 [95314861958705349965; 53677466332656291926; 93820768746577604313; 75815502064199627872; 39442204001324784683; 74275169569701340207; 38451298394040300256; 77347928996928272161; 6656774679328903300; 55912670882296193980; 87815133178851071356; 91888118607993521769; 28717005745597920298; 87833289991539188711; 66699938467687407225; 8390998333380441142; 21768773228302776474; 35398078134454327591; 81257069426803678368; 93351078451071276729; 41025480853117130771] 2331;
SciE false 419 [87880302725926332668; 22490623958709101156; 63702748784344551177; 28501892903192056898; 34765712089221451478; 41081706343264635671; 20852097119305156836; 74514790535167866932; 50337546254341248843; 11551482553477090850; 36965552790900687791; 7920845356570027071; 28277079297441282515; 56582293372199131992; 15697343267207789461; 52736500463376766733; 12470808916495159909; 35437028039966890039; 65119018011512991456; 15669694331887717144; 51625493346573994570] 2334;
SciE false 419 [81113519416030005052; 77158845913888500367; 57597637127950020736; 63407247149646268517; 17488752258351399714; 57318414954833258724; 52546485641118659760; 31577151663959941178; 70061555192756972682; 19562018396859354854; 89119205226001334831; 16610940264114134986; 79399744191538303761; 86725456782539798828; 76088647835632789672; 98975789927696755694; 67410556629925032596; 33408376880889439506; 59804853624626491114; 3263127868332362924; 38850330358887796989] 2337;
SciE false 419 [74948891940411724668; 76094773624432974339; 64020216706225819160; 64988296366273152109; 86959607086716693336; 26562215418265931061; 46152952732393641618; 53177288137498985649; 11936876998107442758; 34875304998698043885; 91946145628825233383; 99748508804041460727; 79765363632981392675; 96534322067066774117; 77505910600124697657; 84253629893191802261; 87887354326050730119; 1269340237941842104; 9659684749154877789; 36615130150339103342; 13497705251612324417] 2340;
SciE false 419 [69327725044880845318; 60387665602600501264; 16718700453258882723; 60114174138802665701; 62937636555212941336; 4570049261895986231; 85191481277464118497; 14188991527186561725; 43541611223249384551; 47259657123795690594; 47550184706663340880; 19767370643738351173; 21282961360507788225; 26794247912036766058; 94192967305115345333; 50434607651202417092; 23795802751596925360; 8674139720096203946; 28935208392968261955; 16368995389063670591; 47485377357741400086] 2343;
SciE false 419 [64197473391559662765; 2718978348008064170; 61881516619717725402; 5465725252531268439; 70880251450127183677; 17831865616515683250; 69487311662931773728; 35339006154174756157; 75319531992728930094; 66362442496634809490; 48431471038370253655; 6304585216101713186; 39508022219830211896; 59811473566546045370; 58022687724536809778; 82502446685013438227; 41234913347978752883; 44032253380809084854; 26394002971888610570; 48157689730272958967; 70571459433268536480] 2346;
SciE false 419 [59511057833975807383; 18020492928603475486; 16364165906478331447; 70466727309096485843; 61005993094267899268; 74430139426510038373; 39414737911537754246; 18359258704919998958; 23721206157259718197; 75317984194380468397; 67895973652569225138; 24344350495326288123; 78823936597782606428; 14645235996188184058; 52787031520645622664; 97079768077007457236; 81124764673576303922; 94917898884010021659; 90267240754940741998; 83642178379963032963; 6319742894639933317] 2349;
SciE false 419 [55226261669929549251; 59123017437744025251; 15985945961211891583; 46993122942841538862; 87013561591480610521; 39471169387801315610; 50976876781907035940; 45837392078165759033; 24413279313937018487; 51495089332385074673; 4607463549584240928; 28991557259662795378; 87548613162742258765; 31990779004462634806; 31386365251159137833; 9290024775462920315; 76083781617078810040; 49683810164361300100; 38967999420585008574; 92019941536605694589; 72264721406225858118] 2352;
SciE false 419 [51305197091364551254; 72825283199664199458; 32750943797965847281; 4356611213899789603; 60635598718485487174; 37568716361267422202; 16357518530391636388; 68582937240615990141; 88379936482647490174; 90138937989785734371; 25980333637563759822; 38133156694226736906; 97532661628187558392; 98219433695145787735; 6557933318326839046; 94330433016405052973; 34181833122266214527; 62156259642691647793; 26201271461723472966; 10086525687506690273; 85233926186383822192] 2355;
SciE false 419 [47713833294969032666; 89727513375687705496; 24458377732108237971; 37051648428926804331; 35391106808191503072; 16938906215978702648; 1212492233264221841; 47782131633772870831; 95193340928862165862; 65829212330500732965; 27161710282934296634; 81463835725630865323; 48705375314214429305; 47344073336485582593; 61098877986043960313; 65727302705256699265; 20789104803707579510; 68805321467703232447; 73367182459402829858; 47380468889381221954; 68267551353336954638] 2358;
SciE false 419 [44421578797616169412; 88136314952765253817; 370749668592769551; 34595084687330854832; 49049120438426289360; 18970121687076172165; 29928830269168990534; 41585164551042542744; 54725000404770676418; 13486996679696182390; 66787552273411830167; 1242831060562335616; 16644704417533633683; 39577332276268077394; 65183055405006927052; 1492118818593987015; 90854656572251756524; 45057754286431709408; 84004846869704034598; 23911216536013917639; 80957090309956704768] 2361;
SciE false 419 [41400911439378269892; 80543045535977216557; 44745538691128461221; 85442618928592356703; 88113780248613301683; 69680153412354992458; 5893669810865499178; 7557373361571649837; 91803700377246270421; 70169880905476841988; 10245998718819825715; 65558318548444096794; 26712864517141346592; 92486073681481848131; 81550607637466456012; 47790654738929595898; 82676539925338637080; 78793826994954353169; 3892517282564160245; 55885253811564971240; 30252008168879648844] 2364;
SciE false 419 [38627050372939925809; 98746661485066743048; 9847587598822854319; 99017963460376668804; 72110156971956210470; 88911583133727207963; 36898793933537510733; 14451029346346349298; 77752852451970770303; 44768498884809893574; 89959516804658897392; 70665911205698342309; 5123102594492876371; 19889506744822564306; 98386716925756203459; 64188680871421312973; 60537211750340948396; 37514640586292411506; 71331718624632361509; 10640941806190118167; 20225123621564712371] 2367;
SciE false 419 [36077665048325890706; 52829381827052338006; 92397646817300545934; 87082777871991808663; 60950886611807100579; 81043418646901212237; 78663473533924035024; 75697261409487490245; 5821164190140699463; 42013777958412440598; 95622188695551410164; 78801961066122251716; 65384977823256346530; 69976799299664275062; 72293193608656294031; 30552227933907506317; 34741755774818445802; 21438674307597112347; 27023825195406625649; 50538639646981570368; 16690265462541441355] 2370;
SciE false 419 [33732616820184707810; 60395472008293936036; 47391799774176010449; 10422397310312341100; 47489078982039639042; 12275596434852633442; 33050347754218972748; 14776939417870803379; 12942788517781553998; 29782882391115631960; 2406746430340568504; 7679833596824305355; 7134954264744684006; 20428307345186097183; 64594136024093634919; 27066333118203518406; 71983541649455246825; 7045160477603300044; 69767276557705194982; 28753628069927768294; 23605398207476247667] 2373;
SciE false 419 [31573729343692886510; 72530161799763124130; 13958724588628745780; 36155363882452351270; 4449777927189102143; 42689958263022064902; 2135125497948958492; 26631215295127071962; 86514450052643534542; 40676777918084231514; 58252714658798772119; 81588324246627549812; 34678317191801024229; 80720895675094186963; 89260111318551642284; 43734087798638493228; 68976594983890111028; 26594270207036688841; 83702170858012062503; 42113395873452391123; 40494652722197767816] 2376;
SciE false 419 [29584584395040234660; 54960761606378047309; 94079324939545134796; 19877575957857853140; 3169441917776188708; 39100490892451674813; 19400612591578174107; 25353448731534066429; 20464039699326991866; 23514140909244924929; 16382793635294449476; 26748259819090014174; 16893583208717559703; 32935479247563253185; 16736724305482888820; 51778840267324268155; 28231069499905034033; 48518831183993377444; 80128934093957302565; 70560251933424890482; 63043489600699308444] 2379;
SciE false 419 [27750340162547740111; 59553194386782608376; 72446406793293336438; 83445166248470666245; 34972936518874065008; 47076260457119670974; 77597774610900327312; 60381534910178954310; 59395269237968718370; 52856264172871739583; 55567060429906193608; 73889867710306433295; 37046181049777071001; 72293479534214331487; 68699047398542949713; 64568552170750163529; 65480743190910921923; 40910663650585788043; 22360940180131949806; 63185516313552547272; 70734793245455951320] 2382;
SciE false 419 [26057569412632327964; 78820449529188869265; 74427175978902442916; 6555011107313955604; 38339587391222747042; 95404608569235371045; 31464310359635407346; 53498261280658038097; 64772157814452626549; 92632032058326563468; 95877469743681915798; 60582585779977740864; 35286364005740669670; 61783577282627257266; 93808405507231829781; 11329870488334403554; 34586417856265355686; 8115113167900054972; 58696922829143900868; 42731199818425841889; 7219970857483138290] 2385;
SciE false 419 [24494115247874388286; 90091222557437537109; 79961545420168296341; 10161710440875118268; 12039212147749382220; 37680332055081248782; 59576451738057282905; 74288365603818555811; 78885828345585468956; 93074110134826969660; 82124821559061000850; 68947630633179076412; 49169182165396229490; 38076562645669621830; 92179901176797919994; 24650078259034339341; 8511232784889434344; 91628206377826051674; 23175107459395266816; 32167327829320291375; 72786772606034149992] 2388;
SciE false 419 [23048962448249799377; 97375840426548722420; 32143814240378366856; 97662169524863486290; 30128898631032168669; 37457192463831455104; 42261441085511903214; 30405352033193261018; 89331564473195926288; 47182737636872178450; 83279457087076401800; 49879720425821510904; 15468200417637851950; 44830045449575114142; 89741287007366842714; 58595723641751313319; 96109070050580957718; 56622142201534314625; 45207776119290946074; 15869455487390394184; 55992353022278135143] 2391;
SciE false 419 [21712122626251311014; 5128041681808896519; 94279473014436421579; 27197763692421404085; 46381422510432302886; 55084675300929230708; 36610277502552212827; 87441841615268051879; 79750333733750562563; 74046138853933592100; 68449248576025970496; 6986696641123863271; 71371044793414856537; 32229902813499757522; 60936292360939565837; 13997171670529737147; 40334743987647262170; 88938057953845324377; 17585725104372071201; 85749027069121751321; 85544796546986003304] 2394;
SciE false 419 [20474531636554986286; 25035743305945789418; 30605543052613545549; 25347491161953384052; 59237681427337661622; 1744848808776264557; 98923491684906736696; 68557656643197772922; 64904564710926780497; 60725508939259377350; 94547641407192490177; 79388454932579803065; 22602895240190209714; 69492798353130271343; 82062923696366010584; 42299332885309542130; 135663580351368227; 14868588650476140887; 67683338773422863143; 35161332526181811496; 50968743143807801116] 2397;
SciE false 419 [19327957864907907054; 22033741680812825210; 88091632641667186998; 49528031656883994545; 64720371267406752571; 18447137275484793742; 74183776150551959441; 67118427871178697638; 98069909087114880789; 74124880438660852219; 29252973488389710727; 83742701456355334093; 57337133106739557970; 67201201645354976148; 56667399969369513991; 69530570243732207770; 72128066419851691606; 42835947686049476997; 96693071802111182807; 32392297904715630052; 70514493527754564254] 2400;
SciE false 419 [18264920182337972166; 23821885888368119824; 28246592846375491713; 57803989915755374845; 63660750847699381179; 76932544725333130086; 89103668462271601672; 37926914338263869268; 83676064087323562346; 30548012014534505347; 23144059946528276637; 80636852876255790718; 42683590785868882282; 28505135554860452460; 39550692971054190722; 15206388880326936343; 33161022766759848568; 7479970563316755763; 7874952852995067752; 92110721519956270399; 80636196383728063220] 2403;
SciE false 419 [17278614492491721669; 26135504050396241353; 77121276832671215161; 4482574460304584603; 97223070301923614596; 6178187310165141062; 19892070365308935182; 7078860963997620328; 31957556626608089979; 60498419365749642058; 48094280709415749699; 36482462820937978019; 63178676883431962639; 4165858234897988027; 53414955550617264423; 15585243880789281780; 79170327537354816745; 39876052152897650951; 87249705398933334094; 26336742557878631798; 21681841779006747806] 2406;
SciE false 419 [16362847924389660420; 79050322335725240562; 2133849160539640757; 50944998013908441619; 96170247575921663022; 47050743382726388585; 90237790635947561617; 42103681332905746450; 91863806125397861210; 68592003139364911029; 38145283831816714965; 29848892291428265184; 59130207008610068619; 17245067748448394662; 7483962906434549408; 72859225955107449846; 40974300177875011457; 89262621388794075451; 42325471012789867387; 26740895202311064312; 91132704164719390172] 2409;
SciE false 419 [15511979832321398078; 90939705574267528052; 79622889004191579438; 11895858117185202655; 72369394701973736545; 30204104726824616379; 43545425522878288413; 31514289903594647635; 47086888206877172427; 73025218976117935655; 85361729072562245787; 10296749892273995394; 99255436244162345050; 97548324225529078139; 64694796835299952839; 47470546205441862454; 39643636568625510862; 8220965076576783527; 94924546520124794283; 12950368651790888968; 63993803548153981883] 2412;
SciE false 419 [14720868860873006776; 88501780589979884122; 10362121664977808886; 77489169353208757320; 28178555572173075981; 49163695385756560944; 8424608821211495704; 23607061118511320606; 6185456908326436633; 91600932808335920937; 40508280889861571251; 96071615647768021629; 84793408995710065453; 37573359690027095154; 52495362196699655244; 66149548348964327469; 22221811103625609808; 11601695857671367568; 2383394647598429774; 68989899850549553631; 23930119567198128807] 2415;
SciE false 419 [13984825417829356438; 4076691560480889915; 99844015581728918442; 43614710885548319454; 26769627793564422182; 41705510616468732896; 88003378380150920919; 2426708062585754575; 75876184062910114802; 22020886167919124890; 53482866845368492689; 36268034865379620548; 35553738545924562180; 70694691705525740396; 79870594086864672482; 42842070931516111095; 76110720548444329317; 71021611064787799189; 62264224915218508285; 95540404858022075949; 67733613588838222367] 2418;
SciE false 419 [13299568972355717972; 57676933674017326310; 11451658818224201438; 75677590052156451801; 857916031679765495; 47861940596261764984; 93291212839523525793; 99207799367519052601; 54658251043827519176; 91141862745691087770; 89862206369945436547; 58390901156976019141; 48611605357174258633; 85230651811954979117; 35556934976608303530; 78942809455871821652; 6881295241570557181; 14241552122613197029; 33113277894372801379; 94358925019978994228; 14314666522985149471] 2421;
SciE false 419 [12661189661682643509; 89308440857664494647; 22901979194949439769; 69645065729652942114; 56016736062159136751; 69564567447641200265; 65613234623226396555; 88045824997878138076; 67234654993723798256; 41967053333897915557; 89548820464188055593; 29988137901441170222; 69478248300029894219; 42739580524981140119; 72250202097731104961; 31153554601989974212; 76950993069975170436; 44757957620727763571; 92323840555442906913; 70629696619020002505; 19227562529881862296] 2424;
SciE false 419 [12066113747583559264; 92810944137354263398; 80925586172786816100; 52071747640359253835; 17583949467237657324; 36595032777602063853; 17029412595934755917; 75407671222977865587; 6874626209018779738; 36794601827204713526; 67440025902371216980; 41478695420073435222; 22812770629928489191; 11430820240307026534; 9554442599137743028; 12989337535696445424; 76934296395686337425; 93454333612553558684; 4284620049337090288; 76210100877926062387; 44823867090977414768] 2427;
SciE false 419 [11511072515194715538; 74141640707035967282; 46403009208838622559; 89676447248902728158; 75775087791744725087; 44511661269832368915; 92446059616521757145; 53738918346720883770; 6358393403403915870; 40302050143153296704; 44737784710862140999; 31570675430750057202; 563383180951778688; 32305002509252903313; 52714938239577406848; 83591828009054408935; 22995318761484765904; 34155434266376094984; 57687527527067584135; 47904436237541463517; 62561969204792453689] 2430;
SciE false 419 [10993074252010953339; 49805266875219348754; 75314873794440884544; 70141007122702105391; 61365208841116212458; 51008636512689912314; 70785986933778278073; 98820667021118444000; 41072265700250739656; 23488457886711398352; 74724584398873344654; 34649995036366304627; 91538030937808948647; 34851277396336522664; 41842766018796423540; 63830195748646960533; 14460529417217951438; 64618439724389170710; 27091588788349542849; 38248736606852097659; 33246680590576793273] 2433;
SciE false 419 [10509378984922471392; 56013835132709697409; 54401019347485485624; 73454802809303212754; 38265139652107099110; 33564256506131556172; 86071403508692033838; 73272557672189232464; 39265086009439707111; 36054965739696096825; 22636702685322917489; 55525395254766187224; 28710357576545354906; 86517821190897715667; 18401684313969380904; 85021667135706494269; 68624266122860361575; 34575228376516047199; 1899558881662162964; 965792196150605362; 32183826644591414369] 2436;
SciE false 419 [10057475688570805122; 68005240222003180420; 93361775515543609742; 87096246288503174605; 94419738647066493848; 59120993476367899257; 42770333157818276383; 66721837692285095468; 42376687311033799705; 57204602212889164661; 74163324469854032037; 50437803258811241173; 64275812200753904645; 86997554879689113893; 49510411888468697525; 94165735448871115016; 8973422679577366027; 60588493556325857169; 46117877849750689956; 55724263131716129331; 74199922098873983551] 2439;
SciE false 419 [96350617096508313075; 27490201326790468432; 54405809438907781336; 70382039443860412724; 94541096238897011069; 50379117503604474886; 15739791651899087755; 53195205092091214587; 49968664439703801179; 38020089199478197459; 48484648421201626919; 29194155219411690443; 49762280883222406507; 43436575747421711099; 68309745891530122298; 52107745600185281854; 13965389270351166544; 46437768269601711683; 43809269800611609783; 81838440801840518998; 8835253707212762419] 2441;
SciE false 419 [92400241795551472239; 18863103072392059226; 80975171251912562301; 89896375826662135803; 22264911293102233615; 65413573685956691415; 82494460194171225157; 55514201683315474789; 41219949197675945331; 2561265542299591363; 64596777835932360215; 60097194855415811135; 31422027367010287840; 62955676141777420944; 59609046309977387284; 28171328030577685298; 11992808310266768716; 14133819770548041504; 41713089738786533782; 68183064728965057719; 16673008305217039160] 2444;
SciE false 419 [88704232123729413349; 62108578949496376857; 73736164401836059809; 82300520793595650371; 9374314841378144271; 2797030738518423759; 19194681786404376151; 25293633615982855797; 83571151229768907517; 78458814920607607709; 10012906722495065806; 97693307061199178689; 90165146272329876327; 437449096106324106; 81224684457578291792; 91044474909354577886; 19513095977856097967; 49568466979726119844; 24044566149235072431; 37455742139806455410; 40006087973008357593] 2447;
SciE false 419 [85244767070903966228; 98586344370466018160; 28560453990164453477; 23990800482645420006; 62108716562564396644; 45787946539716205232; 58346089196734605481; 35407181904959524421; 72011876331807920124; 59098921138703911008; 44522403360317758240; 50483268085812410720; 99548705567709011150; 25120388581358177466; 64656921763732738412; 98693740387889749348; 63352085234719710146; 76335296767516801170; 31506828069414904606; 55094968196354003649; 39445850542061031647] 2450;
SciE false 419 [82005465922209615512; 28440063284388309470; 19475156738538204245; 10479150064304894046; 36948585333186949571; 96848004571206989433; 74528937807258690473; 6261708992571062493; 69475425031199219159; 85653162135433162390; 12430552032625683427; 36564903898551539113; 59765854756136068726; 54165813815266566722; 91399958736710894353; 29343378253149938873; 38544705995800361161; 18634555490351162725; 84309568602777138231; 50201359404892551510; 71746908221462712445] 2453;
SciE false 419 [78971263683087859738; 32987780942865942019; 79754575939212290688; 3591421511925612966; 65381487675859032437; 80564628402072330824; 69671367108390118925; 55930025759845933181; 42804834305044848050; 94183995136422135381; 68970621607418533140; 55312002454305132166; 39454518130159034183; 65961678704101703754; 16618160263452591262; 22157673257783391135; 7018551873955747798; 22245076937208169704; 98690114564474384116; 93643909106911527104; 82092272617268592084] 2456;
SciE false 419 [76128298190496696787; 75000220828922768107; 8483411205400648223; 26662130337496290899; 85427754119528107270; 4464301779597726915; 763197892488074644; 23916544832491479586; 89663860270063233521; 10793371311510938507; 94887679229551465947; 49320770365950147408; 40434155477473308953; 4787058270754042419; 1619906493968297976; 78159997020503189054; 20765884006493340877; 48644254167468675595; 60737270440153306288; 72672728379062712129; 4736950803046922769] 2459;
SciE false 419 [73463807753829312400; 17875213099910471223; 33686491813211625535; 45228955775683920718; 35937782725344623515; 59308051217311806472; 98236485966250992031; 69079465763354277801; 35525625160611020347; 86915603315608055660; 17066610456517164639; 33094543403141892249; 11018960035761743139; 69119511231277650934; 35063209766679407547; 59424397124785577437; 31039078066266073946; 77441705271607271949; 76111465974747940568; 62129182885795517204; 53071157524940280472] 2462;
SciE false 419 [70966038290199115778; 57267455854513515201; 74341151091562430267; 24691171279310667413; 93515898112682906316; 6291577475923205052; 90096445443398458302; 61330763927400232356; 10917753905150245656; 4160472802877381767; 72486345700995581041; 59369328927435067912; 64044315394545843872; 94169447849414210802; 58271060634612307690; 97603967622542867804; 44183749412013027432; 58408687292372624703; 46923676131606510589; 28816790667678469619; 57666738169092310936] 2465;
SciE false 419 [68624159026622544957; 87977629811314569200; 8587893105540870068; 42776362627093415389; 27529873474964370407; 63283955419217739286; 15523262743766309178; 62706848717796024688; 35757468026280287549; 39223177200382428169; 38994296292862726867; 22110141072829710671; 52330852986525831025; 13461856070383541846; 9748115633670101537; 17383036690998953166; 89525685681416597527; 30881200611724328088; 25475194819263495739; 84165836575645080122; 13063735809512264675] 2468;
SciE false 419 [66428185937770623519; 22762345657352502985; 68313080526163562226; 23807519023026426096; 81848917523765510554; 58858868845802771628; 99826518335965787284; 91100229558826551898; 33013229049439318347; 81168035529970190467; 96946478811491119607; 47002616558499159930; 3456265690957004432; 33031076676131268507; 2236175933392658287; 98426779516886986665; 55460863739611266406; 43493002192149149589; 43059988585047063876; 16672529805224437558; 22245696263607872206] 2471;
SciE false 419 [64368912173699734190; 13156712941974575393; 12695375029852491797; 22469485933312606887; 81711601080528779727; 39634243911582885708; 49931896267550847879; 7876122442502928789; 48189818948906699479; 2951826428541114563; 46241137968334894899; 63845535445185685972; 20349121454537337294; 92807113299171199183; 30466854479457485881; 5675549351863490078; 92241576963683317147; 83544719124192525952; 15825128938910604896; 555681381262479993; 91756079679436028167] 2474;
SciE false 419 [62437844808488742164; 42762011553715338131; 33314513778956917043; 30795401355313228681; 18260253048112916335; 57445216594235399137; 24433939379524322442; 70639838769227840925; 79744124380439498494; 65863271635684881126; 55853903829284848052; 64930169381830115393; 3738647810901217176; 8022899900196063207; 80552848845073761304; 62505282871307585376; 55474329654772817633; 40038377550466750173; 59350375070743286749; 12539010939824605594; 10003397289052947322] 2477;
SciE false 419 [60627147309042568641; 65921913218657593325; 52448392879367166449; 5202334716009145049; 42830705709717641761; 84279305313002572562; 26425355137518117091; 86791283444920233538; 94931544773406753038; 31353236758250019573; 88834140618235587459; 12247194469757042046; 63930227024385081877; 97390235803090377374; 77916816228566622226; 79092629668039665400; 63465574094784405922; 3177264601503214418; 55929214193691731433; 40075379622569692031; 87113298767670411850] 2480;
SciE false 419 [58929587184389376719; 69276099648535180712; 40979837878744885788; 47856669343960888988; 4431445949845547792; 51119484764238500530; 52085445193667609813; 29561127508462466999; 85873461519751363953; 24075346129019019025; 81946784680924991010; 26704273024603844869; 33340180667702299585; 39063309200603846808; 28535145374166756804; 44078036037334554769; 41688538020130442556; 21488301192661124414; 83963196196268362953; 26553268993137740654; 97874126402175640318] 2483;
SciE false 419 [57338488330410863548; 26105644958024730833; 17473382256018773872; 18964539271673944985; 36711796909199718002; 11339258675604061016; 19679138173438584348; 33662977065733980390; 86254878058718077126; 50325311783535505512; 12234221494540016252; 98983257652939541057; 86139995789674337496; 58508599852187542944; 46164696449064254370; 72087929064326521790; 64262947493586920607; 19708117060459274055; 63896189898969117153; 52736330730323021657; 29431524989316898030] 2486;
SciE false 419 [55847687633820181096; 626898189116087831; 51219074317362285751; 51271461250610422415; 74757290189560525334; 5844437950038355429; 77567480580929181155; 27987739662024896900; 70012251229191407121; 21416853677163582368; 80716131735681975830; 41209692953963112990; 35700355899142804721; 67387376256030666827; 90564414341388583757; 8213642908654032224; 8592110858753660671; 40995706016887332930; 19234888961595920107; 53565186131334623094; 20466305339594658681] 2489;
SciE false 419 [54451495442974676568; 60611225734388185635; 72438597459428228607; 72489674719345161855; 35388357934821512200; 70698327001287396544; 3128293566405951626; 39788046170474274478; 18261944948461621943; 18381432335234492809; 58698228442289926434; 65179450630114035165; 59807847001664234603; 63202691849629900157; 20800303982853869163; 15508301835937681418; 48377308087284819154; 62470813366465149606; 93754016737556022104; 84726056478051257516; 84954647706104792214] 2492;
SciE false 419 [53144659552343284330; 95956556316762869180; 46700071120401951121; 13949922526080877970; 82539037344385795907; 89001567153256499026; 97453214520812208787; 36433133062382891890; 70623658269698543016; 54740277959188864982; 15689470959674968200; 22015143814991298321; 62372458673624292973; 14485827245238782553; 43501096687265376303; 23936102591875177064; 44016252693189983494; 91371513845669986016; 37103920335854677574; 33092631122578027336; 44515736161158277201] 2495;
SciE false 419 [51922332382639388791; 34749555521477323189; 31625969484632706245; 35329074307981017777; 49640639485464922602; 854531108731599549; 35411790586833527985; 25495171001948085377; 21999314129495476527; 16681251566127521087; 56728613127602443931; 61508795507246498460; 22637892124130934234; 76252653218598290554; 70600571463458272648; 26485572232262047991; 95803878881246613874; 53069969027219576337; 99450530168130019990; 12131500606758732707; 70691874229451636825] 2498;
SciE false 419 [50780041070221322237; 93785065300004822079; 15130198155970786707; 95551834673205435386; 39148545416784694304; 76435731424339504359; 26832731193923190369; 57934277239905227498; 92115329218646576043; 56914264031672715623; 64080583638795190165; 11955602006087075494; 10139858497400053681; 59775094847789128162; 50247358891262190650; 302889643152282936; 13496193545859188369; 29102429708620745658; 55862618504431159550; 33864607593410040588; 13736652996403700815] 2501;
SciE false 419 [49713660207746674470; 94115578928704720815; 48912463994695400187; 8845246145068121243; 27726425963032215724; 36430581064428374767; 72369243838850803371; 81817657417867217721; 44380907305054997946; 65419064487007588595; 54434891382380491171; 65204534363959246908; 72526921468954652554; 28419817855985556471; 8992164354545684646; 35296528960646084994; 47612773481396145413; 53591278684739709999; 72889503515838105199; 78153450833948429735; 78648183283479223098] 2504;
SciE false 419 [48719387003591740981; 52233267350130626399; 17934214714801492183; 34668341222166758818; 41171897443771571409; 87701969443139807272; 36921858962073787304; 38181304269509873367; 1493289158953897987; 72110683197267436823; 63346193554732881348; 21900443676680061970; 55076383039575559503; 19851421498865845341; 66812321067454770953; 42590598381433163294; 58660518011768222505; 26519453111044915799; 73431713445521343095; 78590381817269461141; 7075219617809638636] 2507;
SciE false 419 [47793718650523497902; 87340835270478144497; 59493464635220263831; 86309642738945590400; 86189631392339911553; 8935632023720150934; 19420343641794385345; 59855859488389185773; 4164916664933773925; 95440580216519355523; 98442615877192956602; 60284335246823140793; 11029931761823623872; 63774244490387394280; 17642886967173130305; 31081377012185933191; 98945968169544626277; 66515583501935062399; 53936510890056437576; 96597164562741341379; 39040790445071255502] 2510;
SciE false 419 [46933431714814074940; 62168700235609537896; 63822582271786299082; 88956069169644569773; 64638218027277793145; 13374790647293188217; 37870777456242086409; 37778454017598180429; 12689948164964965995; 28722649772622007124; 55270648791403483383; 75599217212380324258; 83431392990110798642; 93026308089560421183; 13325315001764013959; 81521912225966586394; 53364940742492823004; 66718302998900231276; 34765653694035421700; 58058415600611997234; 56138056217059972903] 2513;
SciE false 419 [46135563375662235666; 63111832331604175752; 39537598373165931998; 48043815993760612087; 49439368320814070661; 66647419206289204017; 68326974239485970940; 41836220299299011361; 83174219046160561573; 36734364726487433003; 43531047761949624166; 23214030519769858746; 43413059309278915066; 44860852037894023; 1998784646734025722; 49836039718125154425; 82657736749870445013; 58784091847918927344; 64974637581236819531; 67071422535401593281; 57383709261369953363] 2516;
SciE false 419 [45397394361651639895; 96502043014298508940; 35704996799195277086; 50475114937860442294; 9448338427681045531; 7981060498988576753; 40033742651654195405; 37166840774510227180; 4243431541421992588; 19346614890863634075; 38034550997758430179; 57242606031453541006; 49118450360330452424; 94444143078405287718; 65166804092386281310; 93838663082635151955; 1335212961872517893; 37043546378352224507; 13535043379937030419; 16398279774835167789; 6865569913188034109] 2519;
SciE false 419 [44716433446226865297; 52554512369084031306; 25169421847207347930; 20717988213792535659; 68306613351265829848; 11361344591503748102; 9933236511879382474; 29109338162892573772; 34179780068300662699; 37056415667500679564; 24964032732792053726; 87883966940981737891; 39381673604925495638; 57027480932229208402; 87189302031000487091; 27431083136395624675; 68815184767444430124; 96987893182676941139; 52832017729237974962; 87652305578212640272; 23262586364490213598] 2522;
SciE false 419 [44090403377979689183; 36018749195916854867; 96417049941346445059; 18427936378799440160; 44750320764348108230; 24002285767222695628; 66994171200713071119; 65101807428612077739; 52901263147344453421; 57937625848155670050; 35014536274532964974; 70253591403807993560; 91430330174456538699; 63029096199177999485; 23168651802566480271; 99647047972486085930; 22851772180700208103; 22030062678119463963; 57492369481028643313; 39625173300117663308; 42136910155387350607] 2525;
SciE false 419 [43517228134065953223; 97650505456369935754; 68063628292108941273; 41488373205875047438; 36168566594411582823; 24690256052248800585; 49723246975103801195; 9555483932040120728; 91513546726428975527; 9884436712129646339; 69559347302964036430; 3140294715558489644; 62241735882188603696; 53509717948588685491; 92367459329133116028; 46051636348843766813; 13554699142351105397; 87843671863303910932; 4844968677775270950; 32210046047216133685; 41189130323367315050] 2528;
SciE false 419 [42995021396457161785; 28878699390893496525; 62446864752603633978; 13390512727404546869; 10134543795278643829; 36793972979621814978; 47126568011402555580; 75440818124855639280; 16815384165711827820; 77365823471584090583; 61924635135328467992; 87102611178971787768; 88694835051602340452; 17667601333205621266; 2059049817183518636; 11899016712657641611; 37792042752642892133; 10389547800944264000; 86386829053641967698; 91823525494649540081; 18694860759486907269] 2531;
SciE false 419 [42522076161096133005; 65061033697593668063; 84259949240324994004; 37443217087403096853; 54123063813530578747; 24489239276845975013; 70808175763277127469; 36610969125482227248; 8630414939888997714; 74514799413396665587; 19943464148839854844; 94944482456003098103; 42919191866034714707; 20273257718540359432; 9436400269194499931; 12168127528818407553; 65276330282363820319; 63975262775133877096; 85436573934051906054; 23013466714208395140; 29389217291132551289] 2534;
SciE false 419 [42096855399485171675; 59410423360617731383; 20417349747921744064; 33068784916529065885; 581833175395272959; 77244346884077515263; 57100094005644356194; 67244859434227404975; 60544110790490107737; 59769651419262698931; 32744029507351456296; 49995037631443067122; 39489999947374367560; 13070525141354955837; 77342036266502554931; 81046446253530223478; 11623566979540182116; 44335510147382538325; 88582208194711386993; 68783332047066311188; 89095325118221225776] 2537;
SciE false 419 [41717983700889805130; 51375729550372171800; 75533593600190448367; 75171165852280304292; 4076596676816715503; 13449147762120817626; 19886193159593556988; 92039655699319358330; 82499213793375696767; 95931724556489334640; 94549333241785293189; 83145082292760079518; 29334589947847998252; 8952890415082761235; 23345957940104031937; 42417028237248451466; 81318954876724320477; 39536490556056095480; 95284968320958984510; 74464282058642714388; 19093467192157234744] 2540;
SciE false 419 [41384239831282686689; 46964723713969194426; 34929324851388924780; 80969796525462061857; 70443983903402181779; 10941554580023851085; 18927103614316808533; 903338453724803464; 17839220083028691193; 81564270760037419963; 81792938575851010844; 31279921634417998882; 14699913228265214266; 7281267291762099145; 35159190276583199681; 92477692011350463855; 7868403237710525913; 57620198631607646717; 10522688574391312634; 65868567802173572673; 8540719454619976866] 2543;
SciE false 419 [41094550152463707882; 64335970647971410065; 36484819577429202307; 34403007949783827424; 70050876016078366506; 65564963697963684127; 59294613889016590873; 27797015084548729839; 92914345542447490355; 45893320864717158024; 7120388005820053768; 40260962182977072889; 97197013835667357766; 21030298420719764451; 33413075944647117284; 15130348167271010608; 9313324415046552232; 18116857241186393190; 8549029754370573446; 21607487827558357664; 37380934418437637028] 2546;
SciE false 419 [40847982851548925635; 34749954824083581604; 97265910659964627093; 49996589902085124460; 15230570759981896307; 61571573915775902022; 82738846205682491328; 3830232994041437460; 88956859469192805413; 32617960939528855075; 92677665677785133445; 79219396409879210452; 63213831752653353619; 61304116630195445864; 62612597488979234580; 44639566078267384544; 44457444468556272918; 78808156097739274830; 94497735575844350005; 53877842900593007518; 38756648811927011206] 2549;
SciE false 419 [40643742937291181007; 17076205049963163696; 94779581106664803958; 3246606952574698837; 85154417906181986826; 7763716046197022512; 71325151974654078871; 39811081829071230273; 58512075171846841386; 25954871134831210800; 54714277349396207778; 56323299427829814400; 36897762593890086851; 51497596047044468635; 30299534501534338407; 54416368247876047621; 72235157246213491554; 19414115317250578456; 79025246897965128255; 51108453686090042480; 79562865567867376150] 2552;
SciE false 419 [40481167965542016283; 14207900229763311042; 16000462782238144742; 20033620524764400042; 50013800234557258878; 77332661182012234422; 66239851366755462555; 91251837501754945352; 49078026871159454020; 71451051650291885957; 34495420239998622947; 44898006230118495142; 76750171543514526504; 10891605662856290760; 76178336363528201053; 91398702774884543431; 23546216617228637587; 97736458855981576142; 96309145910373267742; 48904019871345682310; 87244614105595906645] 2555;
SciE false 419 [40359724461645390234; 29265276529074021109; 3352461393891430307; 97373519663190106842; 37263758833853587102; 13700663198466197719; 39441131812655196168; 24478081989249680516; 43330792790545975658; 65236698495341010299; 47291933979278627078; 60663312211428139657; 33919921028883982924; 59658930845867721888; 47949801354437616450; 75224506666559889800; 94175577967376951675; 21343249479413631414; 53420218472642147939; 26157307811731645263; 93982880263279118925] 2558;
SciE false 419 [40279005012722099453; 82406745976015873066; 81545756471103647447; 35778772623863726628; 68789231316185879927; 93273261872069265323; 95562249549029885775; 90829125825271181155; 40044131204964883707; 33506225098350328278; 87397350111320069824; 44941985587005283378; 2452081186826214958; 74739612984175986444; 70253901751728741217; 85074057653226770021; 33987226811442197771; 86300562980454804151; 70513378035696863643; 38304993196108181973; 41194914502752560688] 2561;
SciE false 419 [40238726007709377354; 37024339230039857193; 74864210714632543799; 91042993851239862902; 5920442084869694048; 479988610197196058; 63166687299480855890; 13238296699445909974; 24504087073759918823; 62772718873251977950; 59509952761208749754; 62497043601418278094; 64649629105639388743; 78864873371191810458; 25783647849977012476; 63288983595573543251; 31853239584630755574; 9114262417474349347; 55342864657661166779; 73966688202912073791; 43853719588249808127] 2564;
SciE false 419 [40238726007709377354; 37024339230039857193; 74864210714632543799; 91042993851239862902; 5920442084869694048; 479988610197196058; 63166687299480855890; 13238296699445909974; 24504087073759918823; 62772718873251977950; 59509952761208749754; 62497043601418278094; 64649629105639388743; 78864873371191810458; 25783647849977012476; 63288983595573543251; 31853239584630755574; 9114262417474349347; 55342864657661166779; 73966688202912073791; 43853719588249808127] 2567
].
