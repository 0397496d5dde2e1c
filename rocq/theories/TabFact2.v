(** * The table of double factorials

    Generated from libs/e_float/src/functions/tables/A006882.cpp *)

From Coq Require Import ZArith List.
From Verif Require Import ModelTables.
Import ListNotations.
Open Scope Z_scope.

(* tables/A006882.cpp 19-7040: the entries in the order of the array *)
Definition A006882 : list entry :=
[
IntE 1;
IntE 1;
IntE 2;
IntE 3;
IntE 8;
IntE 15;
IntE 48;
IntE 105;
IntE 384;
IntE 945;
IntE 3840;
IntE 10395;
IntE 46080;
IntE 135135;
IntE 645120;
IntE 2027025;
IntE 10321920;
IntE 34459425;
IntE 185794560;
IntE 654729075;
IntE 3715891200;
IntE 13749310575;
IntE 81749606400;
IntE 316234143225;
IntE 1961990553600;
IntE 7905853580625;
IntE 51011754393600;
IntE 213458046676875;
IntE 1428329123020800;
IntE 6190283353629375;
IntE 42849873690624000;
IntE 191898783962510625;
IntE 1371195958099968000;
IntE 6332659870762850625;
SciE false 427 [46620662; 57539891200000000000; 0; 0; 0; 0; 0; 0; 0; 0; 0; 0; 0; 0; 0; 0; 0; 0; 0; 0; 0; 0] 19;
SciE false 428 [221643095; 47669977187500000000; 0; 0; 0; 0; 0; 0; 0; 0; 0; 0; 0; 0; 0; 0; 0; 0; 0; 0; 0; 0] 20;
SciE false 429 [1678343852; 71436083200000000000; 0; 0; 0; 0; 0; 0; 0; 0; 0; 0; 0; 0; 0; 0; 0; 0; 0; 0; 0; 0] 21;
SciE false 429 [8200794532; 63789155937500000000; 0; 0; 0; 0; 0; 0; 0; 0; 0; 0; 0; 0; 0; 0; 0; 0; 0; 0; 0; 0] 21;
SciE false 429 [6377706640; 31457116160000000000; 0; 0; 0; 0; 0; 0; 0; 0; 0; 0; 0; 0; 0; 0; 0; 0; 0; 0; 0; 0] 22;
SciE false 429 [3198309867; 72877770815625000000; 0; 0; 0; 0; 0; 0; 0; 0; 0; 0; 0; 0; 0; 0; 0; 0; 0; 0; 0; 0] 23;
SciE false 424 [25510; 82656125828464640000; 0; 0; 0; 0; 0; 0; 0; 0; 0; 0; 0; 0; 0; 0; 0; 0; 0; 0; 0; 0] 24;
SciE false 425 [131130; 70457687988603440625; 0; 0; 0; 0; 0; 0; 0; 0; 0; 0; 0; 0; 0; 0; 0; 0; 0; 0; 0; 0] 25;
SciE false 426 [1071454; 71557284795514880000; 0; 0; 0; 0; 0; 0; 0; 0; 0; 0; 0; 0; 0; 0; 0; 0; 0; 0; 0; 0] 26;
SciE false 426 [5638620; 29680583509947946875; 0; 0; 0; 0; 0; 0; 0; 0; 0; 0; 0; 0; 0; 0; 0; 0; 0; 0; 0; 0] 26;
SciE false 427 [47144007; 48520531002654720000; 0; 0; 0; 0; 0; 0; 0; 0; 0; 0; 0; 0; 0; 0; 0; 0; 0; 0; 0; 0] 27;
SciE false 428 [253737913; 35626257947657609375; 0; 0; 0; 0; 0; 0; 0; 0; 0; 0; 0; 0; 0; 0; 0; 0; 0; 0; 0; 0] 28;
SciE false 429 [2168624344; 31944426122117120000; 0; 0; 0; 0; 0; 0; 0; 0; 0; 0; 0; 0; 0; 0; 0; 0; 0; 0; 0; 0] 29;
SciE false 429 [1192568192; 77443412353990764062; 50000000000000000000; 0; 0; 0; 0; 0; 0; 0; 0; 0; 0; 0; 0; 0; 0; 0; 0; 0; 0; 0] 30;
SciE false 429 [1040939685; 27333324538616217600; 0; 0; 0; 0; 0; 0; 0; 0; 0; 0; 0; 0; 0; 0; 0; 0; 0; 0; 0; 0] 31;
SciE false 429 [5843584144; 59472720534554743906; 25000000000000000000; 0; 0; 0; 0; 0; 0; 0; 0; 0; 0; 0; 0; 0; 0; 0; 0; 0; 0; 0] 31;
SciE false 424 [52046; 98426366666226930810; 88000000000000000000; 0; 0; 0; 0; 0; 0; 0; 0; 0; 0; 0; 0; 0; 0; 0; 0; 0; 0; 0] 32;
SciE false 425 [298022; 79137433108747262291; 93921875000000000000; 0; 0; 0; 0; 0; 0; 0; 0; 0; 0; 0; 0; 0; 0; 0; 0; 0; 0; 0] 33;
SciE false 426 [2706443; 18171066643800402165; 76000000000000000000; 0; 0; 0; 0; 0; 0; 0; 0; 0; 0; 0; 0; 0; 0; 0; 0; 0; 0; 0] 34;
SciE false 427 [15795207; 94283954763604901472; 77859375000000000000; 0; 0; 0; 0; 0; 0; 0; 0; 0; 0; 0; 0; 0; 0; 0; 0; 0; 0; 0] 35;
SciE false 428 [146147931; 81237598765221716951; 4000000000000000000; 0; 0; 0; 0; 0; 0; 0; 0; 0; 0; 0; 0; 0; 0; 0; 0; 0; 0; 0] 36;
SciE false 428 [868736436; 85617511998269581002; 82265625000000000000; 0; 0; 0; 0; 0; 0; 0; 0; 0; 0; 0; 0; 0; 0; 0; 0; 0; 0; 0] 36;
SciE false 429 [8184284181; 49305530852416149258; 24000000000000000000; 0; 0; 0; 0; 0; 0; 0; 0; 0; 0; 0; 0; 0; 0; 0; 0; 0; 0; 0] 37;
SciE false 429 [4951797690; 8019818390136611716; 8914062500000000000; 0; 0; 0; 0; 0; 0; 0; 0; 0; 0; 0; 0; 0; 0; 0; 0; 0; 0; 0] 38;
SciE false 429 [4746884825; 26597207894401366569; 77920000000000000000; 0; 0; 0; 0; 0; 0; 0; 0; 0; 0; 0; 0; 0; 0; 0; 0; 0; 0; 0] 39;
SciE false 424 [29215; 60637147316928501806; 912492592968750000; 0; 0; 0; 0; 0; 0; 0; 0; 0; 0; 0; 0; 0; 0; 0; 0; 0; 0; 0] 40;
SciE false 425 [284813; 8951595832473664081; 99418675200000000000; 0; 0; 0; 0; 0; 0; 0; 0; 0; 0; 0; 0; 0; 0; 0; 0; 0; 0; 0] 41;
SciE false 426 [1782151; 98865986332638610166; 55662048171093750000; 0; 0; 0; 0; 0; 0; 0; 0; 0; 0; 0; 0; 0; 0; 0; 0; 0; 0; 0] 42;
SciE false 427 [17658411; 54998941613367173083; 63957862400000000000; 0; 0; 0; 0; 0; 0; 0; 0; 0; 0; 0; 0; 0; 0; 0; 0; 0; 0; 0] 43;
SciE false 428 [112275575; 28557138956232440493; 6709034778906250000; 0; 0; 0; 0; 0; 0; 0; 0; 0; 0; 0; 0; 0; 0; 0; 0; 0; 0; 0] 44;
SciE false 429 [1130138339; 19932263255499077352; 93303193600000000000; 0; 0; 0; 0; 0; 0; 0; 0; 0; 0; 0; 0; 0; 0; 0; 0; 0; 0; 0] 45;
SciE false 429 [7297912393; 56214032155108632049; 36087260628906250000; 0; 0; 0; 0; 0; 0; 0; 0; 0; 0; 0; 0; 0; 0; 0; 0; 0; 0; 0] 45;
SciE false 429 [7458913038; 71552937486293910529; 35801077760000000000; 0; 0; 0; 0; 0; 0; 0; 0; 0; 0; 0; 0; 0; 0; 0; 0; 0; 0; 0] 46;
SciE false 429 [4889601303; 68663401543922783473; 7178464621367187500; 0; 0; 0; 0; 0; 0; 0; 0; 0; 0; 0; 0; 0; 0; 0; 0; 0; 0; 0] 47;
SciE false 424 [50720; 60866326559974906798; 59159963447328768000; 0; 0; 0; 0; 0; 0; 0; 0; 0; 0; 0; 0; 0; 0; 0; 0; 0; 0; 0] 48;
SciE false 425 [337382; 48995437774706530672; 5964195314058874335; 93750000000000000000; 0; 0; 0; 0; 0; 0; 0; 0; 0; 0; 0; 0; 0; 0; 0; 0; 0; 0] 49;
SciE false 426 [3550442; 60642859198243475901; 41197441313013760000; 0; 0; 0; 0; 0; 0; 0; 0; 0; 0; 0; 0; 0; 0; 0; 0; 0; 0; 0] 50;
SciE false 427 [23954156; 78676082004163677716; 23457867298180077851; 56250000000000000000; 0; 0; 0; 0; 0; 0; 0; 0; 0; 0; 0; 0; 0; 0; 0; 0; 0; 0] 51;
SciE false 428 [255631867; 66285862273530264901; 66215774536990720000; 0; 0; 0; 0; 0; 0; 0; 0; 0; 0; 0; 0; 0; 0; 0; 0; 0; 0; 0] 52;
SciE false 429 [1748653445; 43353986303948473285; 12424312767145683164; 6250000000000000000; 0; 0; 0; 0; 0; 0; 0; 0; 0; 0; 0; 0; 0; 0; 0; 0; 0; 0] 53;
SciE false 429 [1891675820; 70515380824123960272; 29996731573731328000; 0; 0; 0; 0; 0; 0; 0; 0; 0; 0; 0; 0; 0; 0; 0; 0; 0; 0; 0] 54;
SciE false 429 [1311490084; 7515489727961354963; 84318234575359262373; 4687500000000000000; 0; 0; 0; 0; 0; 0; 0; 0; 0; 0; 0; 0; 0; 0; 0; 0; 0; 0] 55;
SciE false 424 [14376; 73623735916894263342; 9806947975159960358; 9280000000000000000; 0; 0; 0; 0; 0; 0; 0; 0; 0; 0; 0; 0; 0; 0; 0; 0; 0; 0] 56;
SciE false 425 [100984; 73647378692709053024; 33221592504062302663; 20272460937500000000; 0; 0; 0; 0; 0; 0; 0; 0; 0; 0; 0; 0; 0; 0; 0; 0; 0; 0] 57;
SciE false 426 [1121385; 42651401517752540683; 64941942062476907931; 23840000000000000000; 0; 0; 0; 0; 0; 0; 0; 0; 0; 0; 0; 0; 0; 0; 0; 0; 0; 0] 58;
SciE false 426 [7977794; 18142916724015188922; 24505807820921910393; 1524414062500000000; 0; 0; 0; 0; 0; 0; 0; 0; 0; 0; 0; 0; 0; 0; 0; 0; 0; 0] 58;
SciE false 427 [89710834; 12112121420203254691; 95355364998152634499; 7200000000000000000; 0; 0; 0; 0; 0; 0; 0; 0; 0; 0; 0; 0; 0; 0; 0; 0; 0; 0] 59;
SciE false 428 [646201328; 69576254645230302701; 84970433494674741834; 23477539062500000000; 0; 0; 0; 0; 0; 0; 0; 0; 0; 0; 0; 0; 0; 0; 0; 0; 0; 0] 60;
SciE false 429 [7356288397; 93193956456666884740; 19139929848516028923; 90400000000000000000; 0; 0; 0; 0; 0; 0; 0; 0; 0; 0; 0; 0; 0; 0; 0; 0; 0; 0] 61;
SciE false 429 [5363471028; 17482913555411512425; 35254598005800357224; 14863574218750000000; 0; 0; 0; 0; 0; 0; 0; 0; 0; 0; 0; 0; 0; 0; 0; 0; 0; 0] 62;
SciE false 429 [6179282254; 26282923423600183181; 76077541072753464296; 7936000000000000000; 0; 0; 0; 0; 0; 0; 0; 0; 0; 0; 0; 0; 0; 0; 0; 0; 0; 0] 63;
SciE false 424 [45589; 50373948604765220997; 85561549664083049303; 3640526340380859375; 0; 0; 0; 0; 0; 0; 0; 0; 0; 0; 0; 0; 0; 0; 0; 0; 0; 0] 64;
SciE false 425 [531418; 27386660331414429615; 75363142668532256797; 92946282496000000000; 0; 0; 0; 0; 0; 0; 0; 0; 0; 0; 0; 0; 0; 0; 0; 0; 0; 0] 65;
SciE false 426 [3966286; 82533528614574226813; 43854820775225289364; 16725791613134765625; 0; 0; 0; 0; 0; 0; 0; 0; 0; 0; 0; 0; 0; 0; 0; 0; 0; 0] 66;
SciE false 427 [46764808; 10026109164469806186; 31956554830838598217; 79272859648000000000; 0; 0; 0; 0; 0; 0; 0; 0; 0; 0; 0; 0; 0; 0; 0; 0; 0; 0] 67;
SciE false 428 [352999527; 45484046697106186396; 3079048995050753410; 88595453568994140625; 0; 0; 0; 0; 0; 0; 0; 0; 0; 0; 0; 0; 0; 0; 0; 0; 0; 0] 68;
SciE false 429 [4208832729; 2349824802282556768; 76089934775473839601; 34557368320000000000; 0; 0; 0; 0; 0; 0; 0; 0; 0; 0; 0; 0; 0; 0; 0; 0; 0; 0] 69;
SciE false 429 [3212295699; 83904824943666296203; 88019345854961856039; 6218627477846679687; 50000000000000000000; 0; 0; 0; 0; 0; 0; 0; 0; 0; 0; 0; 0; 0; 0; 0; 0; 0] 70;
SciE false 429 [3872126110; 70161838818099952227; 26002739993435932433; 23792778854400000000; 0; 0; 0; 0; 0; 0; 0; 0; 0; 0; 0; 0; 0; 0; 0; 0; 0; 0] 71;
SciE false 424 [29874; 35000850314871976096; 55469608579916451145; 26116327833235543974; 12109375000000000000; 0; 0; 0; 0; 0; 0; 0; 0; 0; 0; 0; 0; 0; 0; 0; 0; 0] 72;
SciE false 425 [363979; 85440595212848901395; 50936244257559382977; 64872436521212313600; 0; 0; 0; 0; 0; 0; 0; 0; 0; 0; 0; 0; 0; 0; 0; 0; 0; 0] 73;
SciE false 426 [2838063; 25080779912837729172; 69612815092062858799; 81051144157376677541; 50390625000000000000; 0; 0; 0; 0; 0; 0; 0; 0; 0; 0; 0; 0; 0; 0; 0; 0; 0] 74;
SciE false 427 [34942066; 2297140433494533968; 89879448725700765854; 27753906036382105600; 0; 0; 0; 0; 0; 0; 0; 0; 0; 0; 0; 0; 0; 0; 0; 0; 0; 0] 75;
SciE false 428 [275292135; 32835651545259729751; 52443063930097303581; 61960983265537721525; 87890625000000000000; 0; 0; 0; 0; 0; 0; 0; 0; 0; 0; 0; 0; 0; 0; 0; 0; 0] 76;
SciE false 429 [3424322470; 25119762482464328952; 8185975118675053719; 19882791565446348800; 0; 0; 0; 0; 0; 0; 0; 0; 0; 0; 0; 0; 0; 0; 0; 0; 0; 0] 77;
SciE false 429 [2725392139; 75072950298071324540; 9186332907963305458; 3413734328823443106; 20117187500000000000; 0; 0; 0; 0; 0; 0; 0; 0; 0; 0; 0; 0; 0; 0; 0; 0; 0] 78;
SciE false 429 [3424322470; 25119762482464328952; 8185975118675053719; 19882791565446348800; 0; 0; 0; 0; 0; 0; 0; 0; 0; 0; 0; 0; 0; 0; 0; 0; 0; 0] 79;
SciE false 424 [27526; 46061148236798010520; 37785492781962370429; 38512614478716721116; 77537263183593750000; 0; 0; 0; 0; 0; 0; 0; 0; 0; 0; 0; 0; 0; 0; 0; 0; 0] 80;
SciE false 425 [349280; 89196562215773211361; 55311234969462104855; 47935828044739675527; 57760000000000000000; 0; 0; 0; 0; 0; 0; 0; 0; 0; 0; 0; 0; 0; 0; 0; 0; 0] 81;
SciE false 426 [2835225; 44298268390195083598; 91905756542124154226; 66799291307822275027; 86338107910156250000; 0; 0; 0; 0; 0; 0; 0; 0; 0; 0; 0; 0; 0; 0; 0; 0; 0] 82;
SciE false 427 [36325212; 76442470440413981601; 52368436824058904969; 85326116652926254868; 7040000000000000000; 0; 0; 0; 0; 0; 0; 0; 0; 0; 0; 0; 0; 0; 0; 0; 0; 0] 83;
SciE false 428 [297698671; 51318180970483777886; 50104436923036193800; 13925587321338877925; 65501330566406250000; 0; 0; 0; 0; 0; 0; 0; 0; 0; 0; 0; 0; 0; 0; 0; 0; 0] 84;
SciE false 429 [3850472553; 2901866683882049761; 51054303350243926804; 44568365210183016015; 46240000000000000000; 0; 0; 0; 0; 0; 0; 0; 0; 0; 0; 0; 0; 0; 0; 0; 0; 0] 85;
SciE false 429 [3185375785; 19104536384176423385; 56117475076487273661; 49003784338325993804; 50864237060546875000; 0; 0; 0; 0; 0; 0; 0; 0; 0; 0; 0; 0; 0; 0; 0; 0; 0] 86;
SciE false 429 [4158510357; 27134016018592613742; 43138647618263440948; 80133834426997657296; 69939200000000000000; 0; 0; 0; 0; 0; 0; 0; 0; 0; 0; 0; 0; 0; 0; 0; 0; 0] 87;
SciE false 424 [34720; 59605858239446587523; 1490261680478333711; 28291024141249287753; 33246914420183959960; 93750000000000000000; 0; 0; 0; 0; 0; 0; 0; 0; 0; 0; 0; 0; 0; 0; 0; 0] 88;
SciE false 425 [457436; 13929984741762045187; 51166745251238008978; 50436814721786969742; 30263693312000000000; 0; 0; 0; 0; 0; 0; 0; 0; 0; 0; 0; 0; 0; 0; 0; 0; 0] 89;
SciE false 426 [3853986; 16250264578571215054; 65419046533095041952; 40303679678670940619; 90407500640419555664; 6250000000000000000; 0; 0; 0; 0; 0; 0; 0; 0; 0; 0; 0; 0; 0; 0; 0; 0] 90;
SciE false 427 [51232847; 60158291077349061001; 30675468138657005592; 48923248840140611137; 89533650944000000000; 0; 0; 0; 0; 0; 0; 0; 0; 0; 0; 0; 0; 0; 0; 0; 0; 0] 91;
SciE false 428 [435500436; 36279897378547301175; 92352258239739740621; 54315803689816290049; 16047572367409790039; 6250000000000000000; 0; 0; 0; 0; 0; 0; 0; 0; 0; 0; 0; 0; 0; 0; 0; 0] 92;
SciE false 429 [5840544626; 58045182817792954148; 97003367806898637543; 77250367776029669720; 6836207616000000000; 0; 0; 0; 0; 0; 0; 0; 0; 0; 0; 0; 0; 0; 0; 0; 0; 0] 93;
SciE false 429 [5008255018; 17218819853293963523; 12050969757007017147; 74631742432887335565; 34547082225212585449; 21875000000000000000; 0; 0; 0; 0; 0; 0; 0; 0; 0; 0; 0; 0; 0; 0; 0; 0] 94;
SciE false 429 [6775031766; 83332412068639826812; 80523906656002419550; 77610426620194416875; 27930000834560000000; 0; 0; 0; 0; 0; 0; 0; 0; 0; 0; 0; 0; 0; 0; 0; 0; 0] 95;
SciE false 424 [58596; 58371261460192283539; 37322050996346156982; 10062863191386464781; 82611454200862034987; 24975585937500000000; 0; 0; 0; 0; 0; 0; 0; 0; 0; 0; 0; 0; 0; 0; 0; 0] 96;
SciE false 425 [799453; 74848633224624099499; 56391101820985408285; 50699158030341182941; 19128295740098478080; 0; 0; 0; 0; 0; 0; 0; 0; 0; 0; 0; 0; 0; 0; 0; 0; 0] 97;
SciE false 426 [6972993; 46180113762881741185; 41324068565192680869; 97480719774989309037; 30763049902582163482; 72094726562500000000; 0; 0; 0; 0; 0; 0; 0; 0; 0; 0; 0; 0; 0; 0; 0; 0] 98;
SciE false 427 [95934449; 81835986954891939947; 66932218518248994260; 83898963640941952942; 95395488811817369600; 0; 0; 0; 0; 0; 0; 0; 0; 0; 0; 0; 0; 0; 0; 0; 0; 0] 99;
SciE false 428 [843732208; 87793765308690683435; 212296388314385266; 95167092773706393514; 22329038212441781409; 23461914062500000000; 0; 0; 0; 0; 0; 0; 0; 0; 0; 0; 0; 0; 0; 0; 0; 0] 100;
SciE false 429 [1170400287; 78399040849681667361; 56573065922637729982; 23567356419491825904; 3824963504171909120; 0; 0; 0; 0; 0; 0; 0; 0; 0; 0; 0; 0; 0; 0; 0; 0; 0] 102;
SciE false 429 [1037790616; 91986331329689540625; 5261124557626693878; 35055524111658864022; 49464717001303391133; 35858154296875000000; 0; 0; 0; 0; 0; 0; 0; 0; 0; 0; 0; 0; 0; 0; 0; 0] 103;
SciE false 424 [14512; 96356852148106536052; 67528341506017440707; 85177972235219601698; 64121007429547451731; 67308800000000000000; 0; 0; 0; 0; 0; 0; 0; 0; 0; 0; 0; 0; 0; 0; 0; 0] 104;
SciE false 425 [129723; 82711498291416211192; 57813157640569703336; 73479381940513957358; 281183089625162923; 89166982269287109375; 0; 0; 0; 0; 0; 0; 0; 0; 0; 0; 0; 0; 0; 0; 0; 0] 105;
SciE false 426 [1828633; 40963370661423542637; 8571029758197529189; 32424501637669814028; 79246936122978918190; 80908800000000000000; 0; 0; 0; 0; 0; 0; 0; 0; 0; 0; 0; 0; 0; 0; 0; 0] 106;
SciE false 427 [16474926; 4360283009858821457; 42271020352352323765; 31881506445272584466; 35710252382395691334; 24206748199462890625; 0; 0; 0; 0; 0; 0; 0; 0; 0; 0; 0; 0; 0; 0; 0; 0] 107;
SciE false 428 [234065076; 43311444662213457546; 97091809049283736233; 50336209621736195685; 43607823741301528423; 56326400000000000000; 0; 0; 0; 0; 0; 0; 0; 0; 0; 0; 0; 0; 0; 0; 0; 0] 108;
SciE false 429 [2125265459; 62476508271787968007; 52961625453449765726; 12714331440163396160; 6622557329044182117; 22670517730712890625; 0; 0; 0; 0; 0; 0; 0; 0; 0; 0; 0; 0; 0; 0; 0; 0] 109;
SciE false 429 [3042845993; 63048780608774948110; 62193517640688571035; 54370725082570543910; 66901708636919869506; 32243200000000000000; 0; 0; 0; 0; 0; 0; 0; 0; 0; 0; 0; 0; 0; 0; 0; 0] 110;
SciE false 429 [2784097752; 10844225836042238089; 86379729344019193101; 22655774186614048969; 68675550101047878573; 56698378227233886718; 75000000000000000000; 0; 0; 0; 0; 0; 0; 0; 0; 0; 0; 0; 0; 0; 0; 0] 111;
SciE false 424 [40165; 56711592243904035829; 31506020954432857089; 13766917693571089931; 17962083102554007342; 27748345610240000000; 0; 0; 0; 0; 0; 0; 0; 0; 0; 0; 0; 0; 0; 0; 0; 0] 112;
SciE false 425 [370285; 103042282036193617; 66595188504002754552; 68246313217966819668; 51296833848163439367; 85028440884304222106; 93359375000000000000; 0; 0; 0; 0; 0; 0; 0; 0; 0; 0; 0; 0; 0; 0; 0] 113;
SciE false 426 [5382185; 99353360683140801128; 21806807894002849944; 44766970938526050778; 6919135742236983865; 18278311772160000000; 0; 0; 0; 0; 0; 0; 0; 0; 0; 0; 0; 0; 0; 0; 0; 0] 114;
SciE false 427 [49988475; 13910708074886138384; 90350448040371864612; 13252284425520655249; 25072569502064314659; 78839519381069984436; 3515625000000000000; 0; 0; 0; 0; 0; 0; 0; 0; 0; 0; 0; 0; 0; 0; 0] 115;
SciE false 428 [731977295; 12057052907148953437; 65725873584387592444; 88308047639542905817; 41002460944229805664; 85850401013760000000; 0; 0; 0; 0; 0; 0; 0; 0; 0; 0; 0; 0; 0; 0; 0; 0] 116;
SciE false 429 [6848421094; 5767006259400958731; 78011381530945451862; 15562966296329769147; 34942021782811108391; 1014155206587867736; 81640625000000000000; 0; 0; 0; 0; 0; 0; 0; 0; 0; 0; 0; 0; 0; 0; 0] 117;
SciE false 429 [1010128667; 26638733011865555743; 96701705546454877573; 93865105742569210028; 2583396103037131817; 50473553398988800000; 0; 0; 0; 0; 0; 0; 0; 0; 0; 0; 0; 0; 0; 0; 0; 0] 119;
SciE false 429 [9519305320; 74016138700567332637; 17435820328014178088; 39632523151898379114; 81569410278107440663; 50409675737157136154; 17480468750000000000; 0; 0; 0; 0; 0; 0; 0; 0; 0; 0; 0; 0; 0; 0; 0] 119;
SciE false 425 [141418; 1341729422621661177; 80415538238776503682; 86035141114803959689; 40392361675454425198; 45445066297475858432; 0; 0; 0; 0; 0; 0; 0; 0; 0; 0; 0; 0; 0; 0; 0; 0] 121;
SciE false 426 [1342222; 5022436275556779993; 90184158450666249999; 11046388185764417671; 45518901286849213149; 13355407764278939156; 19773864746093750000; 0; 0; 0; 0; 0; 0; 0; 0; 0; 0; 0; 0; 0; 0; 0] 122;
SciE false 427 [20081357; 90525578012275887248; 19006429906263522966; 16990038302162275895; 35715357914528378180; 53199414241571897344; 0; 0; 0; 0; 0; 0; 0; 0; 0; 0; 0; 0; 0; 0; 0; 0] 123;
SciE false 428 [191937753; 18208387404619539127; 96334658445273749872; 79633510564311727018; 9202884019437480326; 9823310291888299336; 27662658691406250000; 0; 0; 0; 0; 0; 0; 0; 0; 0; 0; 0; 0; 0; 0; 0] 124;
SciE false 429 [2891715538; 35683233767727763739; 36925906501947307128; 46565515511367728931; 43011539692086457996; 60715650786353217536; 0; 0; 0; 0; 0; 0; 0; 0; 0; 0; 0; 0; 0; 0; 0; 0] 125;
SciE false 429 [2783097421; 14021617366983317355; 46852547456469373155; 54685903182520041762; 33441818281843464728; 42437999232380340376; 1108551025390625000; 0; 0; 0; 0; 0; 0; 0; 0; 0; 0; 0; 0; 0; 0; 0] 126;
SciE false 429 [4221904686; 97521300882535059; 47911823492843068407; 55985652646596884239; 88796847950446228675; 4644850148075697602; 56000000000000000000; 0; 0; 0; 0; 0; 0; 0; 0; 0; 0; 0; 0; 0; 0; 0] 127;
SciE false 424 [40911; 53209076117775294654; 76512538732447610099; 78538653882776783044; 61390631594728743098; 93150783838588715991; 352736295700073242; 18750000000000000000; 0; 0; 0; 0; 0; 0; 0; 0; 0; 0; 0; 0; 0; 0] 128;
SciE false 425 [624841; 89352814433152530615; 18880290949876940774; 12431885876591696338; 86750341933496666041; 84390687437821915203; 24517888000000000000; 0; 0; 0; 0; 0; 0; 0; 0; 0; 0; 0; 0; 0; 0; 0] 129;
SciE false 426 [6095818; 28152341548518903560; 368271134693904868; 2259428533740673647; 47204107614582721740; 79466791949718682659; 52557708059310913085; 93750000000000000000; 0; 0; 0; 0; 0; 0; 0; 0; 0; 0; 0; 0; 0; 0] 130;
SciE false 427 [93726284; 2922164972879592278; 32043642481541116118; 64782881488754450830; 12551290024499906276; 58603115673287280486; 77683200000000000000; 0; 0; 0; 0; 0; 0; 0; 0; 0; 0; 0; 0; 0; 0; 0] 131;
SciE false 428 [920468560; 51003573826354437560; 55608941338779635071; 41173708594841720768; 27820249801990982859; 99485584407521081588; 36213916955947875976; 56250000000000000000; 0; 0; 0; 0; 0; 0; 0; 0; 0; 0; 0; 0; 0; 0] 132;
SciE false 429 [1424639517; 24416907587769802630; 47063365719424965003; 44699798629067652617; 90779608372398575404; 10767358233966663399; 784640000000000000; 0; 0; 0; 0; 0; 0; 0; 0; 0; 0; 0; 0; 0; 0; 0] 134;
SciE false 429 [1408316897; 58035467954322289467; 65081680248332841659; 25995774150107832775; 46564982197046203775; 79212944143507254830; 19407292942600250244; 14062500000000000000; 0; 0; 0; 0; 0; 0; 0; 0; 0; 0; 0; 0; 0; 0] 135;
SciE false 424 [21939; 44856556020376851654; 96050924775832079144; 46105308376898887641; 85031578005968934938; 6122325817316803086; 61634472083456000000; 0; 0; 0; 0; 0; 0; 0; 0; 0; 0; 0; 0; 0; 0; 0] 136;
SciE false 425 [218289; 11912495497532919954; 86748587660438491590; 45718529344993266714; 8019717572240542161; 58524778006342243624; 49868008130406103038; 78784179687500000000; 0; 0; 0; 0; 0; 0; 0; 0; 0; 0; 0; 0; 0; 0] 137;
SciE false 426 [3422553; 97622739178788858173; 83944265029804346535; 92428106796226472128; 64926168931153850337; 55082827501421281512; 14977645019136000000; 0; 0; 0; 0; 0; 0; 0; 0; 0; 0; 0; 0; 0; 0; 0] 138;
SciE false 427 [34271391; 70261793112668432914; 19528262688843179701; 77809107163942874110; 59095658841765119368; 88390146995732249046; 29277276473758177089; 69116210937500000000; 0; 0; 0; 0; 0; 0; 0; 0; 0; 0; 0; 0; 0; 0] 139;
SciE false 428 [540763528; 24392790248639591466; 63193874709086752676; 3640873803782596326; 58334691122308353333; 3086745224562478919; 66467913023488000000; 0; 0; 0; 0; 0; 0; 0; 0; 0; 0; 0; 0; 0; 0; 0] 140;
SciE false 429 [5449151280; 71625104914280833357; 4993767526065572582; 71648039066916983583; 96209755840653979652; 54033372321427598360; 55086959327550157260; 89477539062500000000; 0; 0; 0; 0; 0; 0; 0; 0; 0; 0; 0; 0; 0; 0] 141;
SciE false 429 [8652216451; 90284643978233463466; 11101995345388042816; 58253980860521541225; 33355057956933653328; 49387923592999662714; 63486608375808000000; 0; 0; 0; 0; 0; 0; 0; 0; 0; 0; 0; 0; 0; 0; 0] 142;
SciE false 429 [8773133561; 95316418911992141704; 85039965716965571858; 17353342897736343570; 17897706903452907240; 58993729437498433360; 48690004517355753190; 4058837890625000000; 0; 0; 0; 0; 0; 0; 0; 0; 0; 0; 0; 0; 0; 0] 143;
SciE false 425 [140165; 90652082611232447382; 10815099852324595286; 29362863714489940448; 96785040351938902325; 18392160084362206594; 53597708483055688089; 60000000000000000000; 0; 0; 0; 0; 0; 0; 0; 0; 0; 0; 0; 0; 0; 0] 145;
SciE false 426 [1430020; 77059836576282654719; 9789061514411865388; 21288228594892331024; 193917326225262823; 88021615977898312244; 63775936470736328987; 76997661590576171875; 0; 0; 0; 0; 0; 0; 0; 0; 0; 0; 0; 0; 0; 0] 146;
SciE false 427 [22987208; 66941548242121370665; 73676375781233626952; 15509649176350233630; 72746617717979981330; 16314253835401881503; 90024191221132846694; 40000000000000000000; 0; 0; 0; 0; 0; 0; 0; 0; 0; 0; 0; 0; 0; 0] 147;
SciE false 428 [235953427; 14873035086638028651; 15195149877957789055; 12557718157234618960; 31996358827168365940; 23566636353221520365; 23029517671494282982; 4614162445068359375; 0; 0; 0; 0; 0; 0; 0; 0; 0; 0; 0; 0; 0; 0] 148;
SciE false 429 [3815876639; 12297008192147530512; 30278379684782074057; 74601763274138782700; 75938541184676900807; 8166136676712329647; 44015742708052551270; 40000000000000000000; 0; 0; 0; 0; 0; 0; 0; 0; 0; 0; 0; 0; 0; 0] 149;
SciE false 429 [3940422233; 38379685946855078474; 23759002961895077220; 59713893225818136637; 34339192413711711201; 93562827098799390099; 34592945113954525800; 17056512832641601562; 50000000000000000000; 0; 0; 0; 0; 0; 0; 0; 0; 0; 0; 0; 0; 0] 150;
SciE false 429 [6410672753; 72658973762807851260; 66867677870433884417; 1330962300553154937; 27576749190257193355; 89719109616876713807; 69946447749528286134; 27200000000000000000; 0; 0; 0; 0; 0; 0; 0; 0; 0; 0; 0; 0; 0; 0] 151;
SciE false 424 [66593; 13574418616692501850; 82621461527150056026; 80502809164795516326; 50917110332351791727; 91931271211777969709; 69267894620772425831; 48602288255066871643; 6640625000000000000; 0; 0; 0; 0; 0; 0; 0; 0; 0; 0; 0; 0; 0] 152;
SciE false 426 [1089814; 36813352025539677334; 71431367505237973760; 35089226263591094036; 33933688047362343722; 87050252248634869041; 34730890896117419808; 64282624000000000000; 0; 0; 0; 0; 0; 0; 0; 0; 0; 0; 0; 0; 0; 0] 154;
SciE false 427 [11387426; 21225583454417816491; 28269921142659580583; 65980367180033291833; 6825866832156385474; 20247377214032820357; 44809980152084817184; 10991291616435050964; 35546875000000000000; 0; 0; 0; 0; 0; 0; 0; 0; 0; 0; 0; 0; 0] 155;
SciE false 428 [187448071; 31896548392824501570; 86195210900931486780; 35346917337668174250; 36594344146323120333; 72643386765197475111; 73713234132196207086; 56611328000000000000; 0; 0; 0; 0; 0; 0; 0; 0; 0; 0; 0; 0; 0; 0] 156;
SciE false 429 [1970024734; 72025937614282252991; 90696357680107440973; 14603522145759487120; 80874961963054687037; 2796258027677921838; 52126566310673372851; 1493449643263816833; 49609375000000000000; 0; 0; 0; 0; 0; 0; 0; 0; 0; 0; 0; 0; 0] 157;
SciE false 429 [3261596440; 94999942035146327332; 99796669676207869978; 15036361675426231956; 36741588146022293806; 83994929714436066944; 22610273900214003306; 25037107200000000000; 0; 0; 0; 0; 0; 0; 0; 0; 0; 0; 0; 0; 0; 0] 158;
SciE false 429 [3447543285; 76045390824993942735; 83718625940188021703; 556163755079102461; 41531183435345702314; 79893451548436363217; 41221491043678402489; 27613536875711679458; 61816406250000000000; 0; 0; 0; 0; 0; 0; 0; 0; 0; 0; 0; 0; 0] 159;
SciE false 424 [57404; 9736071998979818575; 36106076421386301258; 51161544639965487501; 68243206651951369992; 37100038310762974074; 77821837940820643766; 45819000653086720000; 0; 0; 0; 0; 0; 0; 0; 0; 0; 0; 0; 0; 0; 0] 160;
SciE false 425 [610215; 16157960034176023927; 86424318196791413279; 84143198440984649001; 13567051019468056189; 30971941140924073236; 28948196203914731077; 24060187596027000967; 26417541503906250000; 0; 0; 0; 0; 0; 0; 0; 0; 0; 0; 0; 0; 0] 161;
SciE false 427 [10217929; 33020815818407706414; 26881603006761624015; 6754945913856775299; 47290784047343858642; 3806819315809385310; 52287153466074590429; 55782116249436160000; 0; 0; 0; 0; 0; 0; 0; 0; 0; 0; 0; 0; 0; 0] 163;
SciE false 428 [109228513; 92274846117508283087; 69952957225662977091; 61632520936252171203; 28502132484782057886; 43977464225409109295; 81727120500736862826; 6773579688833173140; 28739929199218750000; 0; 0; 0; 0; 0; 0; 0; 0; 0; 0; 0; 0; 0] 164;
SciE false 429 [1839227279; 43746847313387154568; 38688541217092322712; 15890264494219553905; 12341128521894555566; 85227476845689355894; 11687623893426277320; 40780924898508800000; 0; 0; 0; 0; 0; 0; 0; 0; 0; 0; 0; 0; 0; 0] 165;
SciE false 429 [1977036102; 174714726899923887; 36148525784499885358; 25548628946164298779; 45888597974555247744; 55992102479904878254; 29260881063337217151; 82601792367880433839; 20192718505859375000; 0; 0; 0; 0; 0; 0; 0; 0; 0; 0; 0; 0; 0] 166;
SciE false 429 [3347393648; 57619262110364621314; 46413145015108027336; 12920281379479588107; 32460853909848091131; 67114007859154627727; 29271475486035824723; 14221283315286016000; 0; 0; 0; 0; 0; 0; 0; 0; 0; 0; 0; 0; 0; 0] 167;
SciE false 424 [36179; 76066663197279502268; 60713871518021856347; 90205607539909714806; 66766409761342934361; 3372544655475382259; 27205355474123459071; 7387841612800332211; 93925739526748657226; 56250000000000000000; 0; 0; 0; 0; 0; 0; 0; 0; 0; 0; 0; 0] 168;
SciE false 425 [615920; 43133801944228307090; 32186140018682779877; 2984777331773824244; 21174772797119412048; 76822748977446084451; 50182185951489430591; 74905816716130012626; 94400000000000000000; 0; 0; 0; 0; 0; 0; 0; 0; 0; 0; 0; 0; 0] 169;
SciE false 426 [6693255; 72332691496707919692; 32066230834043424361; 88037394883297239233; 51785805848442856791; 23920761262945717965; 32990762712839928148; 66750698368061459208; 76261812448501586914; 6250000000000000000; 0; 0; 0; 0; 0; 0; 0; 0; 0; 0; 0; 0] 170;
SciE false 428 [114561200; 22887161626465118799; 86622043474997057127; 55168583709931309423; 38507740264210641070; 89031309804971707979; 33886586977034090065; 32481909200182348611; 58400000000000000000; 0; 0; 0; 0; 0; 0; 0; 0; 0; 0; 0; 0; 0] 172;
SciE false 429 [1251638820; 26213309884380982463; 96385165966120355671; 62992843176583736667; 83945693658814219961; 73182356170849259516; 69272627301066563800; 82380594827492872038; 60958927869796752929; 68750000000000000000; 0; 0; 0; 0; 0; 0; 0; 0; 0; 0; 0; 0] 173;
SciE false 429 [2153750564; 30278638577544233437; 48494417329944673997; 97169373746708617159; 63945516967160052132; 73788624333468110011; 57067835168240893228; 10659892963428153897; 77920000000000000000; 0; 0; 0; 0; 0; 0; 0; 0; 0; 0; 0; 0; 0] 174;
SciE false 429 [2365597370; 29543155681480056856; 89167963675967472219; 38056473603743262302; 21657361015158875727; 67314653162905100486; 54925265599015805583; 55699324223961528152; 97212373673915863037; 10937500000000000000; 0; 0; 0; 0; 0; 0; 0; 0; 0; 0; 0; 0] 175;
SciE false 424 [40921; 26072175294132973340; 43531221393929268948; 80596146218101187463; 72603314964822376040; 99052201983862335894; 9021984288868196576; 97133402537966305134; 92405780480000000000; 0; 0; 0; 0; 0; 0; 0; 0; 0; 0; 0; 0; 0] 176;
SciE false 425 [451829; 9772642742735162690; 85966631081062109787; 19390168786458314963; 9972336555953895345; 26398557098754114874; 19293090725729412018; 86645938570926776651; 87721767563371717929; 84008789062500000000; 0; 0; 0; 0; 0; 0; 0; 0; 0; 0; 0; 0] 177;
SciE false 426 [7856882; 5857656473530881363; 57994507634419638170; 74460073875427993035; 39836473245896199870; 18022780901568491665; 32220983462693742778; 49613287289530585905; 41909852160000000000; 0; 0; 0; 0; 0; 0; 0; 0; 0; 0; 0; 0; 0] 178;
SciE false 427 [87203015; 86120049347886399335; 91559798644987188928; 42302575786454787878; 24660955299101801635; 94921520059544170719; 23566510065776519641; 22666144188867893812; 30301139730741560459; 13696289062500000000; 0; 0; 0; 0; 0; 0; 0; 0; 0; 0; 0; 0] 179;
SciE false 429 [1524235119; 36385355864990984534; 50934481077409805124; 45254331833030648867; 28275809703862774814; 96419494904287383072; 50870791762586099028; 24977734168933665651; 30511319040000000000; 0; 0; 0; 0; 0; 0; 0; 0; 0; 0; 0; 0; 0] 181;
SciE false 429 [1700458809; 29340962283784787050; 35416073577250184104; 24900227835868363625; 80888628332485131901; 969641161111329025; 9546946282642133003; 91989811682923929339; 90872224749460428953; 17077636718750000000; 0; 0; 0; 0; 0; 0; 0; 0; 0; 0; 0; 0] 182;
SciE false 429 [2987500833; 95315297495382329687; 63831582911723218043; 92698490392740071779; 87420587019571038637; 32982210012403270822; 11706751854668754095; 36956358971109984676; 55802185318400000000; 0; 0; 0; 0; 0; 0; 0; 0; 0; 0; 0; 0; 0] 183;
SciE false 424 [33499; 3854308016956990560; 30489197696649471828; 62685370534488366606; 76342843505978149957; 9844989101930873893; 18179438074841768050; 2017722199290153601; 40799620182827564370; 45037746429443359375; 0; 0; 0; 0; 0; 0; 0; 0; 0; 0; 0; 0] 184;
SciE false 425 [591525; 16512272428904085701; 27815238653416521197; 17269754301097762534; 21241509276229875065; 65019130477582455847; 62277917936867224413; 31088317359076279776; 96595848832693043200; 0; 0; 0; 0; 0; 0; 0; 0; 0; 0; 0; 0; 0] 185;
SciE false 426 [6666308; 67007295374441121500; 67350341633244893896; 74388736363184954745; 92225857689651841462; 59152831284243904743; 17708176893511841954; 1526717658740566680; 19124416382685309719; 62511539459228515625; 0; 0; 0; 0; 0; 0; 0; 0; 0; 0; 0; 0] 186;
SciE false 428 [118305033; 2454485780817140255; 63047730683304239434; 53950860219552506842; 48301855245975013130; 3826095516491169524; 55583587373444882662; 17663471815255955393; 19169766538608640000; 0; 0; 0; 0; 0; 0; 0; 0; 0; 0; 0; 0; 0] 188;
SciE false 429 [1339928042; 68466370262665421635; 37418668282223673245; 52136009000175903930; 37397395620020133980; 89719088133024853378; 59343555595880232757; 6870249406853902718; 44007692919747253644; 64819431304931640625; 0; 0; 0; 0; 0; 0; 0; 0; 0; 0; 0; 0] 189;
SciE false 429 [2389761667; 9580612772506233163; 73564159802745636577; 69807376434960638218; 15697475968695265226; 77287129433121624396; 2788464943586629775; 96802130668170298942; 47229284079894528000; 0; 0; 0; 0; 0; 0; 0; 0; 0; 0; 0; 0; 0] 190;
SciE false 429 [2720053926; 64986731633210805919; 80959896612914056688; 40836098270357084978; 65916713108640871981; 22129748910040452358; 54467417859636872496; 84946606295913422518; 43335616627086924898; 63583445549011230468; 75000000000000000000; 0; 0; 0; 0; 0; 0; 0; 0; 0; 0; 0] 191;
SciE false 424 [48751; 13800875444500559127; 15654020708859976010; 98618504070479273197; 1965040228509761383; 41062616657440435681; 13767896884684849167; 24742974763465630674; 9842643477395229848; 37120000000000000000; 0; 0; 0; 0; 0; 0; 0; 0; 0; 0; 0; 0] 192;
SciE false 425 [557611; 5496322279984808215; 21356096778805647381; 62112371400145423202; 42062512926187271378; 75615036598526558292; 73350165820661225558; 86185414054290662251; 61627883801408552819; 60422034606337547302; 24609375000000000000; 0; 0; 0; 0; 0; 0; 0; 0; 0; 0; 0] 193;
SciE false 427 [10042734; 42980341567115180194; 24728266025155058263; 15411838518730278586; 4798287073010844982; 58899031432729750314; 36186758245078928452; 97052801273919918864; 27584556343417348764; 46720000000000000000; 0; 0; 0; 0; 0; 0; 0; 0; 0; 0; 0; 0] 195;
SciE false 428 [115425488; 37738711956855300549; 20712033212769007995; 57260879830102602901; 6940175720765175402; 52312575894997566595; 83484324876873690684; 40380709238167086084; 56971946891570433658; 7361163511872291564; 94140625000000000000; 0; 0; 0; 0; 0; 0; 0; 0; 0; 0; 0] 196;
SciE false 429 [2088888761; 39911045959957480403; 43479333232252118736; 5662411895897945897; 98043711186255756378; 50998538007788065387; 26845714976417118217; 86982664975343123769; 37587719430808543009; 17760000000000000000; 0; 0; 0; 0; 0; 0; 0; 0; 0; 0; 0; 0] 197;
SciE false 429 [2412392707; 8739079898275781478; 42881494146872267107; 46752388449144400632; 35049672563992165912; 73332836205449141852; 94822389926660135304; 3956823077692099167; 50713690033822063453; 73848317398130893707; 27539062500000000000; 0; 0; 0; 0; 0; 0; 0; 0; 0; 0; 0] 198;
SciE false 429 [4386666398; 93813196515910708847; 21306599787729449345; 71891064981385686385; 75891793491137088394; 87096929816354937313; 26376001450475948257; 52663596448220559915; 68934210804697940319; 27296000000000000000; 0; 0; 0; 0; 0; 0; 0; 0; 0; 0; 0; 0] 199;
SciE false 424 [50901; 48611954394585853618; 98919484799526499004; 83596756475396276946; 85334259548091100234; 70075867322843934976; 89309720752427452528; 85491523488966939303; 29243440058859713645; 53887388199497100561; 85722351074218750000; 0; 0; 0; 0; 0; 0; 0; 0; 0; 0; 0] 200;
SciE false 425 [929973; 27657488397661373070; 27560916999154998643; 26129240905776053765; 51378089060220121062; 73971264549121067246; 71041191712307500901; 3059564682447022758; 70212614052690595963; 34768586752000000000; 0; 0; 0; 0; 0; 0; 0; 0; 0; 0; 0; 0] 201;
SciE false 427 [10842016; 54346286046786820844; 69850262299144288030; 6109129259406989679; 76197283743404349991; 26159739765758150078; 22970520267047388646; 9694503149958071601; 28852732537119006499; 78013686492882419675; 58860778808593750000; 0; 0; 0; 0; 0; 0; 0; 0; 0; 0; 0] 203;
SciE false 428 [199014281; 18702517099533837038; 98036237819169709657; 91657553836075505819; 94911058887105907426; 29850613511908390796; 2815026433805192820; 54746842043662870362; 25499407275787536156; 40477564928000000000; 0; 0; 0; 0; 0; 0; 0; 0; 0; 0; 0; 0] 204;
SciE false 429 [2331033556; 84451500059166481610; 17806394316021926463; 13462790772502781148; 82416004831935248121; 24344049638002266819; 38661857415188558910; 84318177240985394277; 3337495480586397452; 72942595969720230251; 55067443847656250000; 0; 0; 0; 0; 0; 0; 0; 0; 0; 0; 0] 205;
SciE false 429 [4298708473; 63974369349930880041; 97582736894065728610; 99803162859230925710; 90078871961487600408; 4773251857221241194; 20804570970192164923; 82531788143117999824; 70787197157010780978; 34315402444800000000; 0; 0; 0; 0; 0; 0; 0; 0; 0; 0; 0; 0] 206;
SciE false 429 [5058342818; 35259755128391265094; 8639875665767580425; 214255976331035092; 94842730485299488423; 9826587714464918998; 6896230590959172836; 52970444612938305581; 16242365192872482472; 42285433254292899645; 86496353149414062500; 0; 0; 0; 0; 0; 0; 0; 0; 0; 0; 0] 207;
SciE false 424 [93711; 84472534641251828493; 18491507303664290632; 88371975708950331234; 18049763719408760429; 68889544056890487423; 5803373539647150189; 19533939192981519972; 39617863160898022835; 2532788075773296640; 0; 0; 0; 0; 0; 0; 0; 0; 0; 0; 0; 0] 208;
SciE false 426 [1107777; 7721921886373117687; 5560492132770803100; 11307546922058816496; 68535570557976280587; 96465852022709467817; 26057710274499420058; 85120000527370233488; 92227457077977239073; 66146060509882690145; 2244442701339721679; 68750000000000000000; 0; 0; 0; 0; 0; 0; 0; 0; 0; 0] 210;
SciE false 427 [20616605; 83957621075402268500; 68131606806143939234; 41834655969072871519; 70948018269927294531; 55699692515907233072; 76742178722373041622; 97466622455934393927; 15929895397565023705; 57213376670125260800; 0; 0; 0; 0; 0; 0; 0; 0; 0; 0; 0; 0] 211;
SciE false 428 [244818734; 6544736888459008839; 28868761342347485124; 98967869774998445767; 46361093312758009940; 18953297018792387614; 58753970664371833006; 11520116548821601051; 82268014232969835279; 18279372684074522049; 96021836996078491210; 93750000000000000000; 0; 0; 0; 0; 0; 0; 0; 0; 0; 0] 212;
SciE false 429 [4576886496; 38591878739303607151; 25216710963954510040; 87293625134177477375; 50460055923859386005; 65331738531405742154; 36763676366815240300; 37590185217435451829; 36436778259435262637; 1369620767807897600; 0; 0; 0; 0; 0; 0; 0; 0; 0; 0; 0; 0] 213;
SciE false 429 [5459457769; 65947632612635897116; 13773377934348918287; 26983495982465340614; 43852380874503621666; 22658523519070243805; 30213545815491876036; 36898599038721703455; 64576717395227326725; 77630010854861841714; 11286965012550354003; 90625000000000000000; 0; 0; 0; 0; 0; 0; 0; 0; 0; 0] 214;
SciE false 424 [10252; 22575190445808376040; 8001880485432559258; 10249155537720300557; 54932113030525269445; 2465266343094310348; 86242578350635061666; 13827284202014887055; 41209777618383301134; 98830691067950519889; 69062400000000000000; 0; 0; 0; 0; 0; 0; 0; 0; 0; 0; 0] 216;
SciE false 425 [122837; 79981733821733784307; 68511309901003522850; 66146357128659605470; 16382486678569676331; 48749009816779179080; 48561929804780848567; 21081830218478371238; 32775202976141392614; 85132996675244234391; 43856753956712782382; 96508789062500000000; 0; 0; 0; 0; 0; 0; 0; 0; 0; 0] 217;
SciE false 426 [2317003; 1993040752692985058; 8424989707758392331; 16309151524787926006; 14657544898710894575; 57150193539314138842; 90822707243523936547; 24966229655364474523; 13409741754626056507; 35736181356817495070; 8102400000000000000; 0; 0; 0; 0; 0; 0; 0; 0; 0; 0; 0] 218;
SciE false 427 [27884180; 55853577533569037844; 52067347527799687100; 15223068205730441727; 18824476035316527247; 66025228408873651270; 23558065685252624756; 85575459594590271100; 39971075584096123571; 25190245280441206856; 55483148173801600933; 7495117187500000000; 0; 0; 0; 0; 0; 0; 0; 0; 0; 0] 219;
SciE false 428 [528276688; 54413291614000593243; 20897653368913451505; 18486547651647129401; 41920236906083963230; 30244126963623656183; 7577251523457532772; 92300361423100191274; 57421120054740883677; 47849349354388875978; 47347200000000000000; 0; 0; 0; 0; 0; 0; 0; 0; 0; 0; 0] 220;
SciE false 429 [6385477347; 90469255187309666395; 23422583866128345934; 86082619112271155526; 10805012087484739714; 19777305632066140883; 94797041922851069319; 96780247161172081991; 53376308758012297816; 68566169221036370151; 5640931800566613674; 16381835937500000000; 0; 0; 0; 0; 0; 0; 0; 0; 0; 0] 221;
SciE false 429 [1215036383; 65150570712201364459; 38064602748500938461; 92519059598788397623; 26416544883993115429; 69561492016334409221; 7427678503952325377; 72290831273130439931; 52068576125904032458; 20053503515094414750; 48898560000000000000; 0; 0; 0; 0; 0; 0; 0; 0; 0; 0; 0] 223;
SciE false 424 [14750; 45267365983979482685; 32937299106168730756; 47910952850850149346; 36926530959577922089; 74873979685576010072; 78544191981166841785; 97012912562370942307; 50940044299273231008; 40795654387850900594; 1504894030552459308; 87758731842041015625; 0; 0; 0; 0; 0; 0; 0; 0; 0; 0] 224;
SciE false 425 [281888; 44100714932405230716; 55457630987837652217; 72316664421826918908; 24859728638413086402; 77968938266147789582; 93928923221412916939; 48763171472855366262; 6411279909661209735; 53030252412815501904; 22211344465920000000; 0; 0; 0; 0; 0; 0; 0; 0; 0; 0; 0] 225;
SciE false 426 [3436855; 47296274267219465681; 74390691737314266259; 63252014248084797704; 3881713581655846911; 45637266739210346959; 796731611874136131; 4008627032429557649; 69030321730662824959; 5387472369259838405; 50640309118723018968; 47784519195556640625; 0; 0; 0; 0; 0; 0; 0; 0; 0; 0] 226;
SciE false 427 [65961895; 19567294182823987673; 77085651154010618947; 22099474707499024530; 17176501388662218250; 44731554278582762407; 79368033810622563840; 10582124648155705323; 239498860723078114; 9079064598827445587; 97454605025280000000; 0; 0; 0; 0; 0; 0; 0; 0; 0; 0; 0] 227;
SciE false 428 [807661036; 14624452796574435209; 81812558268852571013; 64223348299927460449; 12202691689124024192; 24757683714431535366; 87231928790421990794; 42027352620946047677; 22125606705763865377; 66056006776062025294; 472642899909457592; 29362010955810546875; 0; 0; 0; 0; 0; 0; 0; 0; 0; 0] 228;
SciE false 429 [1556700726; 61788142714646109100; 99221367234650607154; 41547603096976978912; 5365432772428350710; 55664680974553192823; 93085597930692506626; 49738141696474645622; 85652173113064643492; 54265924532327715876; 19928678596608000000; 0; 0; 0; 0; 0; 0; 0; 0; 0; 0; 0] 230;
SciE false 429 [1914156655; 66659953127881411447; 26895763097180593302; 33209335470828081264; 41920379303223937335; 62675710403202738819; 48739671233300118182; 77604825711642132995; 1437687892660360945; 5552736059266999946; 79120163672785414493; 73587965965270996093; 75000000000000000000; 0; 0; 0; 0; 0; 0; 0; 0; 0] 231;
SciE false 424 [37049; 47729350557796608577; 39660361468540184684; 45027508832953708052; 9810687697299983794; 74691124819407194365; 98920955437230750481; 65771063767772376096; 56582398521720090938; 51512251529003869399; 63785354302550599270; 40000000000000000000; 0; 0; 0; 0; 0; 0; 0; 0; 0; 0] 232;
SciE false 425 [457483; 44070431728797563657; 33589728087380226161; 79925737031177527911; 42219618970653470521; 2321479494786365454; 57785748781424758728; 24568347553345082469; 78580843607406345826; 26586827103918164812; 98728309719117795714; 6400287523865699768; 6640625000000000000; 0; 0; 0; 0; 0; 0; 0; 0; 0] 233;
SciE false 426 [8891874; 55044133871186058575; 18486752449644324268; 6602119908889932503; 54565047351996110739; 25869956657726647837; 41029304935380115597; 85055304265370263175; 79775645212821825243; 62940366960928655913; 8485032612143824896; 0; 0; 0; 0; 0; 0; 0; 0; 0; 0; 0] 234;
SciE false 428 [110253509; 20974046640212841417; 95124469058634504993; 62102624513784226652; 74928171927486395566; 59476558243514074553; 26365456323366853507; 20971760356164875218; 37983309384929344130; 7425332044277719929; 93522642307388767089; 42469293251633644104; 390625000000000000; 0; 0; 0; 0; 0; 0; 0; 0; 0] 236;
SciE false 429 [2151833641; 20680396827026175194; 73794092813926472871; 97713017951363665858; 4741459183058798900; 60529511169848776653; 29091794361987974679; 83383632219603688543; 5706141502881708958; 31568804544734730966; 53377892138805624832; 0; 0; 0; 0; 0; 0; 0; 0; 0; 0; 0] 237;
SciE false 429 [2679160273; 79669333357172046456; 21524598124818471344; 99093775684956707661; 80754577837919412268; 25280365317392011644; 30680588657814540225; 19613776654806467806; 62994418053783062360; 80435568675948594297; 42600208069547040273; 2003826014697551727; 29492187500000000000; 0; 0; 0; 0; 0; 0; 0; 0; 0] 238;
SciE false 429 [5250474084; 54460168257943867475; 16057586465980593807; 62419763801327344693; 63569160406663469317; 47692007254431015034; 2983978243250658218; 79456062615833000045; 5922985267031369858; 29027883089152743558; 34242056818685724590; 8000000000000000000; 0; 0; 0; 0; 0; 0; 0; 0; 0; 0] 239;
SciE false 424 [65639; 42670801898667250715; 13817727352654058052; 54795227797504281439; 33771428487157029025; 60057219368950276104; 28528551674422116456; 23551730537528042758; 46126243363242317685; 2783970671432560740; 56028693705097703902; 48668899093737360090; 1731872558593750000; 0; 0; 0; 0; 0; 0; 0; 0; 0] 240;
SciE false 426 [1291616; 62479797201391454191; 39888950166270631226; 7667555261895126526; 79463438013460039213; 45209932233784590029; 69837134058647839661; 92182346191403494918; 1108457054375689716; 98513940859239931574; 91535223545977396688; 24915968000000000000; 0; 0; 0; 0; 0; 0; 0; 0; 0; 0] 242;
SciE false 427 [16212938; 39688068970810926639; 12978656105552338979; 34421265983557515516; 41542836327786169323; 34133184130718197758; 46552263582262764690; 17277442769426561339; 93182110720852468201; 87640755843842502918; 39087345159132863914; 21218076153127942234; 27772521972656250000; 0; 0; 0; 0; 0; 0; 0; 0; 0] 243;
SciE false 428 [320320922; 94989705945080639466; 92459641235116544067; 1553704949991378645; 6932627338089724936; 12063193978578327365; 19609246544664236156; 61221855468066739666; 74897349485171049812; 31457333091503030579; 735439402394378685; 79160064000000000000; 0; 0; 0; 0; 0; 0; 0; 0; 0; 0] 244;
SciE false 429 [4037021660; 82329173731920733143; 31685370282532405856; 70895229905821363587; 44166245618756161511; 99162848548831241857; 91513631983428407853; 2083249587213773643; 2345569492264582267; 22548205116783226679; 32748944624083114638; 83300962128857616335; 15357971191406250000; 0; 0; 0; 0; 0; 0; 0; 0; 0] 245;
SciE false 429 [8008023073; 74742648627015986673; 11491030877913601675; 38842623749784466126; 73315683452243123403; 1579849464458184129; 90231163616605903915; 30546386701668491668; 72433737129276245307; 86433327287575764475; 18385985059859467144; 79001600000000000000; 0; 0; 0; 0; 0; 0; 0; 0; 0; 0] 246;
SciE false 424 [10132; 92436866646226067121; 4018972530279409156; 33870033947027063611; 62260447857276503077; 96539509898749857566; 41706336699216278405; 30371108228956463906; 57184398887379425584; 10149073595994843125; 89896511199851006448; 61774347085414943432; 61700123548507690429; 68750000000000000000; 0; 0; 0; 0; 0; 0; 0; 0] 248;
SciE false 425 [201802; 18145843514745400802; 86416249573978123422; 76221978834118494568; 54639367555222996526; 70975599812206504346; 24007353825323138468; 77866569768944882045; 99005185330175657761; 38175818119847646909; 26477463326823508458; 57204870840320000000; 0; 0; 0; 0; 0; 0; 0; 0; 0; 0] 249;
SciE false 426 [2563629; 86527261495194981623; 16800050160690516553; 69118588597847093740; 51893307890955278725; 24496004383713964303; 51703184901718436541; 83890381925985368362; 67652918506994672777; 67715619786695310852; 43817333562304631500; 28909812609980688452; 10131257772445678710; 93750000000000000000; 0; 0; 0; 0; 0; 0; 0; 0] 250;
SciE false 427 [51257754; 9044252745331803927; 49727391790443349381; 60382623866097620410; 78399359026641117784; 27802352300452103944; 97867871632077171069; 78108721312000039681; 47317073864617071390; 96657802441302314953; 25275685013171148477; 30037193441280000000; 0; 0; 0; 0; 0; 0; 0; 0; 0; 0] 251;
SciE false 428 [653725615; 64451681274720313907; 84012790976081721191; 25240092451008903832; 32793512193596074937; 46481117847060897396; 84312149938201318168; 92047391126268932482; 51494219283641558307; 67483045607304267371; 73420058387681032573; 72002215545075555285; 83470731973648071289; 6250000000000000000; 0; 0; 0; 0; 0; 0; 0; 0] 252;
SciE false 429 [1312198504; 71532870280494180543; 93021229835349744169; 5795170972099082516; 7023591082012615277; 51740218891573860991; 45417513781175579386; 39583265587201015845; 71317090934197027608; 74439742497339262803; 27057536337181401018; 88952152096768000000; 0; 0; 0; 0; 0; 0; 0; 0; 0; 0] 254;
SciE false 429 [1680074832; 20640820876031206743; 14912872808530023461; 51867037599092882849; 8279326337541912589; 28456472866946506309; 88682225341177387694; 12561795194511156480; 6340143558958804850; 72431427210771967145; 35689550056340253714; 46045693950844177084; 59519781172275543212; 89062500000000000000; 0; 0; 0; 0; 0; 0; 0; 0] 255;
SciE false 424 [33854; 72142165548053236749; 85803339947729752023; 39956169515411080156; 32891461208649915925; 47415994897647402605; 61357951771855554329; 94816901248252149786; 20881939980946102283; 31230560545356431352; 98032438084437499280; 14628734965524096614; 40000000000000000000; 0; 0; 0; 0; 0; 0; 0; 0; 0] 256;
SciE false 425 [435139; 38154145972606892082; 54647562434057409276; 7653333562738165056; 65791244345521423355; 36062470226472539145; 13426068696363364943; 41277853504955378389; 52833642097181770330; 45633759739647589939; 49064743593464592125; 71204525834733268641; 86491015623323619365; 69213867187500000000; 0; 0; 0; 0; 0; 0; 0; 0] 257;
SciE false 426 [8802227; 56963042493841554963; 8868386409735526083; 88604074006880840645; 51779914248978140623; 28158673388324677459; 53067460682444125786; 52394324545558944414; 29304395045986593661; 19945741792672151774; 88433901953749812838; 3471091036265119744; 0; 0; 0; 0; 0; 0; 0; 0; 0; 0] 258;
SciE false 428 [113571378; 58232098850398833544; 63013795288983821055; 97520059874661079787; 71514774181091495749; 12304729109332716880; 4203929750838250230; 73519764793353759666; 89580587364442056249; 10411292048020974207; 5898077894258544810; 84381242865383115526; 74155077687464654445; 64819335937500000000; 0; 0; 0; 0; 0; 0; 0; 0] 260;
SciE false 429 [2306183623; 24317133386487400329; 23517239350707833978; 14267389802780249125; 66337533232272843299; 77572427741065494397; 3674698800360956069; 27313030936443436544; 77751502048487539234; 25784349680103765019; 69682311882450963565; 9425851501461372928; 0; 0; 0; 0; 0; 0; 0; 0; 0; 0] 261;
SciE false 429 [2986927256; 71504199765489322223; 77262816100274493772; 14777574703586398416; 90838560962706338201; 93614375575450453945; 10563352447045981068; 33569814065203879239; 35969447684826079351; 43816980862951621645; 65119448618999728525; 19226687359575938353; 30278543180320411920; 54748535156250000000; 0; 0; 0; 0; 0; 0; 0; 0] 262;
SciE false 429 [6088324765; 36197232140326736869; 18085511885868681702; 29665909079339857691; 75131087733200306311; 40791209236412905208; 17701204832952924022; 88106401672210672478; 21263965408007103578; 44070683155473939651; 99961303369670543811; 84884247963858024529; 92000000000000000000; 0; 0; 0; 0; 0; 0; 0; 0; 0] 263;
SciE false 424 [79153; 57230294861293785467; 3892997464626657274; 8496191605729645039; 55804807221865511717; 96235130780952749437; 2954529928839846718; 49831089600072727902; 79984303190363647891; 10281311149992868217; 97360975665388403492; 80591759507215028762; 36636252381394278490; 91589450836181640625; 0; 0; 0; 0; 0; 0; 0; 0] 264;
SciE false 426 [1619494; 38758628463749326912; 720210746161641069; 33281091131815104402; 14600584869337031281; 47883450461656885832; 78537508520485565477; 79008636302844808038; 87920456214798529889; 55186522801719356067; 94743189706696332364; 65395179209958386234; 52495872000000000000; 0; 0; 0; 0; 0; 0; 0; 0; 0] 266;
SciE false 427 [21134003; 80488727965440719699; 39430323055317492180; 68483158729815225561; 99883528238091628695; 94779918514384099686; 88859491000239073839; 4900923219418350047; 55808951827093986924; 45110077048095814198; 95380502658703732579; 17999788426412679551; 81879385832272357074; 54383373260498046875; 0; 0; 0; 0; 0; 0; 0; 0] 267;
SciE false 428 [434024495; 87312428284819612417; 93016479971319806581; 19332423326447979775; 12956744982324383436; 32764723724045403186; 48052283490131548047; 74314529162408554419; 62682265566006010399; 89988110860787426209; 91174841394617073727; 25908028268847510852; 68893696000000000000; 0; 0; 0; 0; 0; 0; 0; 0; 0] 268;
SciE false 429 [5685047023; 51467822703553599137; 6756901880405396604; 21969698320295676177; 68669096046648119209; 95798080369322815773; 3203079064310862704; 18348346023536162793; 12608041488282482677; 34610725937774019518; 57355215191304063799; 41943086705010799439; 25554788881264053052; 29127407073974609375; 0; 0; 0; 0; 0; 0; 0; 0] 269;
SciE false 429 [1171866138; 85743556369012953528; 41144495922563477769; 22197542981409545392; 84983211452275835278; 8464754054922588603; 49741165423355179728; 90649228738503096932; 99242117028216228079; 72967899324126050766; 76172071765466099063; 59951676325888279302; 26012979200000000000; 0; 0; 0; 0; 0; 0; 0; 0; 0] 271;
SciE false 424 [15406; 47743372477799526630; 25366145311204095898; 62479743537882448001; 28244153093250286416; 40305898612797800864; 83074491680344264282; 43792833724017723783; 116937167792433245; 52805560795067291367; 59289533432633168434; 1289642665764970579; 26648038253477868225; 58377170935273170471; 19140625000000000000; 0; 0; 0; 0; 0; 0; 0] 272;
SciE false 425 [318747; 58976922247332371523; 35972791302890937265; 95322837731690943396; 34685515433515019027; 19563902413102938944; 10015129596995152608; 88626256590216872842; 36577393855831674814; 3768647268616162285; 80855918803520206778; 94529906855960641611; 97021475530342400000; 0; 0; 0; 0; 0; 0; 0; 0; 0] 273;
SciE false 426 [4205968; 33940686439270770059; 24957669958718180324; 56969985841908304350; 10653794457328191678; 3510321293799636098; 79336228733984149105; 55443606656838592759; 31923846807334276029; 15918097053370543352; 86042627108854982485; 52072447753836968139; 74914443199458025584; 36967665329575538635; 25390625000000000000; 0; 0; 0; 0; 0; 0; 0] 274;
SciE false 427 [87336839; 59676695769069797400; 56544816992116810871; 18457538483318490599; 3831228783115213451; 60509261190205270683; 44145509576671814834; 83594305719423158808; 22205916497878899046; 32609351600828466311; 54521752164536657431; 1194478533215801679; 83884295313817600000; 0; 0; 0; 0; 0; 0; 0; 0; 0] 275;
SciE false 429 [1156641293; 33688770799461766293; 63359238647499589256; 66746106524783696279; 29793475765252711459; 65338355794899927168; 17462901845641004027; 46991830630613008812; 79057872016925908018; 77476689676899422036; 61722454935120183518; 19923132305166238431; 1471879850957035701; 66107965633273124694; 82421875000000000000; 0; 0; 0; 0; 0; 0; 0] 277;
SciE false 429 [2410496772; 87076803226326408255; 60636948982423980044; 69428062139590340533; 45741914413979891264; 30055608849665470862; 98416064316142089441; 47202837856079183106; 92883295341457613678; 60018104182865670198; 64800359741211745095; 92967607516756126363; 55206550661365760000; 0; 0; 0; 0; 0; 0; 0; 0; 0] 278;
SciE false 429 [3203896382; 54317895114509092633; 36505091053573862240; 96886715073650838693; 65527927869750010743; 23987245551872798255; 84372238112425581156; 9167370846798034411; 42990305486884765212; 610430405011399041; 42971200170282908345; 41187076485310480453; 91077107187150988893; 60119064804166555404; 66308593750000000000; 0; 0; 0; 0; 0; 0; 0] 279;
SciE false 424 [67011; 81028580735129691874; 14950585707181711386; 64524250100127480611; 46683011625220708640; 97714755545926020700; 8999095966587988750; 8647292238892399001; 29037262155610492521; 66026508503296283665; 63152241450000805686; 51366684499488965820; 31290674742108385968; 12800000000000000000; 0; 0; 0; 0; 0; 0; 0; 0] 280;
SciE false 425 [893887; 9072954692736948036; 84470884920403947107; 56523031393505548583; 99552982291875660252; 99736392441508972510; 71338039854433366737; 14254957696466256651; 60078894295230840849; 49414970310082998180; 33255888964847508931; 42836991194339401624; 4664110512905215125; 90131473219080362468; 95790100097656250000; 0; 0; 0; 0; 0; 0; 0] 281;
SciE false 427 [18763306; 88002605836313724761; 86163998010879188260; 66790028035694571210; 71243255061798419473; 60131552859285796025; 19746870644636850024; 21241826889871720361; 30433403570937906064; 87422380922959426376; 82627606000225592223; 82671659856910429687; 61388927790348071075; 84000000000000000000; 0; 0; 0; 0; 0; 0; 0; 0] 283;
SciE false 428 [251182272; 49500268659082398353; 36318662633509137225; 82971821575059152102; 74388024017060531092; 25926276064021275510; 45989199095776053137; 5643112707018119099; 82169296959866278707; 85606657133322488673; 44904799122150009731; 37194525609371856357; 10615054126365450378; 26943974561581853777; 17018127441406250000; 0; 0; 0; 0; 0; 0; 0] 284;
SciE false 429 [5291252540; 16734845840470382844; 98247439067931089508; 34787906065869081420; 90597927427154291555; 57097906318594479105; 68617521787591706827; 90195182943825141887; 82219807004489510294; 53111420274558238265; 984892063617007119; 13408079648741171907; 11677636878156043386; 88000000000000000000; 0; 0; 0; 0; 0; 0; 0; 0] 285;
SciE false 429 [7108458311; 60857603052031873400; 17818152528308583490; 98102550574174004507; 65181079682813029910; 93713612611802096946; 1494334410462303778; 69700089608612770524; 95391103964215687432; 32668396873026429458; 60805815156845275397; 82605074745223534906; 10406031776142245705; 2514480092766461893; 91613006591796875000; 0; 0; 0; 0; 0; 0; 0] 286;
SciE false 424 [15027; 15721407526962186935; 88727975022726952924; 29420370797653227068; 19123537298113893118; 18801782158053944808; 32066014873761876760; 44739124154319560463; 40296141504251892750; 20923646836433579745; 39667262797093460672; 30021834078946202424; 92821621164488733963; 16321873920000000000; 0; 0; 0; 0; 0; 0; 0; 0] 288;
SciE false 425 [202591; 6188084441686982908; 39190507817347056794; 62949295922691363959; 12846807660770960171; 35246170837959436359; 76296142588530698175; 65769286452553845463; 95996118646462980147; 9182131049310881253; 23957032965731970090; 34883804244630238870; 74482396571905620054; 259321662682643844; 16397660970687866210; 93750000000000000000; 0; 0; 0; 0; 0; 0] 289;
SciE false 426 [4297766; 96322552711185463663; 76200856499908536348; 14226048128822941502; 69331667260573431801; 77309697203428215179; 70880253895896753487; 95389508135394292533; 24696470216041326559; 84162995220003807183; 44837159968729752277; 86244546578613893529; 46983653043777913464; 68055941120000000000; 0; 0; 0; 0; 0; 0; 0; 0] 290;
SciE false 427 [58143634; 75980234764164094708; 47675743578605300058; 66447929812421456269; 87033798641265569178; 15651030494358235251; 96992922908310376413; 75785211882953648156; 50886051534875302215; 35271611152222919679; 75668461165075415930; 11651818208878555903; 76447816136912955498; 74425317189918783275; 6128698587417602539; 6250000000000000000; 0; 0; 0; 0; 0; 0] 291;
SciE false 429 [1237756885; 40895180821413535163; 45846671973658468264; 97101861101007152775; 67520171045148358910; 65192794587325971756; 13513122018265004530; 72178342993556249575; 12583422219902049234; 38942623361096468833; 13102070994168656024; 38429414640801336487; 31292076608039077828; 111042560000000000; 0; 0; 0; 0; 0; 0; 0; 0] 293;
SciE false 429 [1680351044; 55828784684342337074; 97828989421693171695; 40345171578980086199; 25276780732574949248; 72314781286952998781; 93095472050169878357; 60192623417360431723; 10606889357896234023; 69349562299242378744; 96818527670679520380; 36737546236590265618; 79341886356784413913; 70891666788652836649; 27119389176368713378; 90625000000000000000; 0; 0; 0; 0; 0; 0] 294;
SciE false 429 [3589494967; 68596024382099251974; 2955348723609557968; 41595397192920743049; 45808496030930240840; 89059104303245318092; 79188053852968513139; 9317194681313123767; 86491924437715942779; 72933607747179759616; 7996005883089102470; 71445302458323875813; 20747022163313325701; 20322023424000000000; 0; 0; 0; 0; 0; 0; 0; 0] 295;
SciE false 424 [48898; 21539664617634314362; 888186823592171271; 29633624044492948320; 50839825554319317931; 2313784360135450332; 26455419078236659943; 46020621605341445188; 56314238660480314780; 41008948072262907953; 22147857419155216774; 4306869062595484776; 72950688848892982426; 44488892947503549797; 54649379174225032329; 55932617187500000000; 0; 0; 0; 0; 0; 0] 296;
SciE false 426 [1048132; 53056430039119572981; 57641662961827293990; 92677745855980332856; 97044176080841031630; 32554005258456547632; 88309522911725066805; 83661520620846943432; 14021655641935813055; 29168096613462176489; 80789534833717862017; 92144862028317830571; 73745658130471687491; 10475134030839808000; 0; 0; 0; 0; 0; 0; 0; 0] 298;
SciE false 427 [14327177; 11121732966854108068; 60238739312506182489; 82651845036433857908; 96068887415560153789; 77938817519686947353; 51437789923341363433; 84042130365043440249; 71927520732230660; 15621785173032030293; 89322223812478514794; 61912635340477039581; 74551832725643850948; 35245633618540090681; 12268098047934472560; 88256835937500000000; 0; 0; 0; 0; 0; 0] 299;
SciE false 428 [308150963; 98590431501154456583; 46648910777224433332; 47257281658217859949; 30987767767263299315; 70877545986225004067; 62999736047169640915; 96487062529001369049; 22366758729129038255; 75420404357879888003; 52123241113051433268; 90589436325442188090; 81223490358676122384; 79689405066903552000; 0; 0; 0; 0; 0; 0; 0; 0] 300;
SciE false 429 [4226517247; 80911225221961880237; 70428097189323834498; 82294285747988083143; 40321787590245367984; 91951168307649469286; 74148027385702212982; 92428457687814873455; 21218618616008044746; 8426626044448936698; 50056024681161864412; 64227425440726676614; 92790654064936029763; 97461917469326750931; 19088924140669405460; 35766601562500000000; 0; 0; 0; 0; 0; 0] 301;
SciE false 429 [9121268533; 98276772434171914870; 60807759005843226641; 18815537083248654499; 57237925910993659744; 97975361192260120401; 84792186996221371112; 56017050858440523857; 2056058382219532370; 32443968993244684904; 22847936946322424759; 61447315233088767488; 4215314616813222589; 98806389980345139200; 0; 0; 0; 0; 0; 0; 0; 0] 302;
SciE false 424 [12552; 75622599306338909226; 78430598171448652291; 78846150414028671524; 60693590755709143028; 74291521094969873718; 92378162219641335535; 57255928512519332810; 17416198019297289543; 89289587027079352013; 34199454666393303050; 73730554755453558958; 22954633588242572860; 839900461894883900; 45026563694104697788; 13421726226806640625; 0; 0; 0; 0; 0; 0] 304;
SciE false 425 [271813; 80231268647818538323; 6314412071218374128; 15390740703005080809; 90408725690192147611; 6040039665763529351; 58797506807172487396; 85915429308115581527; 61093921270539790142; 6463566830275998691; 61014600868521000408; 25783651129993946045; 27114365616375581034; 3318164430421414285; 14816000000000000000; 0; 0; 0; 0; 0; 0; 0] 305;
SciE false 426 [3753274; 11157192595333858808; 50748853263147035244; 74998973794572785857; 47383635957033765594; 13164807395992241958; 21070503672759325136; 19522625243280510242; 7443207769889573623; 97586521096726251989; 25636945251597612170; 45435871880614128510; 63435442884529285142; 51130238106570286234; 62942544537304638652; 13096141815185546875; 0; 0; 0; 0; 0; 0] 306;
SciE false 427 [81544140; 69380594345561496918; 94323621365512238446; 17222210901524242971; 22617707057644283318; 12011899729058805476; 39252042151746219057; 74628792434674458283; 28176381161937042619; 39070049082799607483; 4380260556300122477; 35095338998183813581; 34309684912674310209; 95449329126424285544; 44800000000000000000; 0; 0; 0; 0; 0; 0; 0] 307;
SciE false 429 [1129735507; 58314971195491501360; 75404832207257608669; 74691112166408543099; 62474423067163443833; 62607026193664829421; 42221605500556865994; 76310198227433582864; 40405538736761660816; 73542850114601848766; 16720520730881263306; 76197436064852681700; 94068308243314827895; 90201670077656156623; 45705905728696234291; 41938686370849609375; 0; 0; 0; 0; 0; 0] 309;
SciE false 429 [2462633048; 95293949235957206952; 8573365238469601074; 40110769226032137731; 3054753140857356207; 22759371817575925387; 5411672982735815543; 93789531527168640155; 10926711090498687105; 59915482300548145987; 92283868800263698815; 99879237745151170156; 56152484362764168340; 62569739618013423442; 32960000000000000000; 0; 0; 0; 0; 0; 0; 0] 310;
SciE false 429 [3423098587; 97694362722339249123; 8476641587990554269; 33314069864217885591; 86297501893505234815; 88699289366804433146; 90931464666687303964; 13219900629123756079; 14428782372387832274; 70834835847243601761; 48663177814570227819; 48878231276503625553; 85026973977243928524; 58311060335298154569; 7488894357949589903; 74219703674316406; 25000000000000000000; 0; 0; 0; 0; 0] 311;
SciE false 424 [74864; 4468816936056773099; 9134340630303249475; 87266179367384471376; 98702332864495482063; 62869971884903254308; 13176644514858675168; 79253571201758425926; 66071532172017151160; 8801021430661936663; 63803285429611528016; 44400636328827452595; 57275947035524628030; 71755502120084387608; 7264681984000000000; 0; 0; 0; 0; 0; 0; 0] 312;
SciE false 426 [1044045; 6933296780630313470; 98254085375684337119; 5214660791308586455; 10551820738077519096; 61884553283256875352; 10980734096723339627; 70906032069691882745; 60413900778623578288; 84378604624933409298; 53725342269233443919; 48494407860539333605; 79392433227063059398; 19999784873402265937; 14356784112779174624; 92041522637009620666; 50390625000000000000; 0; 0; 0; 0; 0] 314;
SciE false 427 [22908397; 67457982433372568321; 95108232872794339617; 3450886419648241358; 2913856535617511470; 38211396780395818288; 32053221546754601650; 51592787738078333558; 17888844637248254986; 93112557782552619073; 23805341461127573031; 86594716621200494245; 26439792870536177399; 57183648745822608070; 22992687104000000000; 0; 0; 0; 0; 0; 0; 0] 315;
SciE false 428 [320521836; 28522111653506235591; 64004210335091495549; 900862931736041717; 39408966589798362661; 98557857959860733097; 71085367694065265706; 68151845395408002900; 47067539037438534675; 4231619854556654650; 93680076654667283281; 87783213185575416978; 73477000708359235247; 39933956134495642703; 7532722623206609850; 56747449561953544616; 69921875000000000000; 0; 0; 0; 0; 0] 316;
SciE false 429 [7055786483; 77058589478751043160; 93335724820656602046; 62873017251658338272; 97467812970193532877; 69110208361912032802; 72392236400417308358; 90578623328126735919; 9764148272462535974; 78667797026206674557; 32045170027292493814; 71172719329752227541; 43456204125142639068; 12563813713363285630; 81747628032000000000; 0; 0; 0; 0; 0; 0; 0] 317;
SciE false 429 [9904124741; 21333250093342679781; 67730099354327212464; 37836664590643689067; 47737067624769406255; 35437810959696652719; 26537861746616710336; 45892022718107289624; 54386956256850721458; 80757053505800628713; 94714368629219053410; 2501287434280384642; 90439321888300369144; 63959244555915359525; 2761129057084244382; 53496191464364528656; 585937500000000000; 0; 0; 0; 0; 0] 318;
SciE false 424 [21872; 93809968881627384128; 23379889340746944035; 46634454906353480140; 84864622150220207599; 95192084241645921927; 30168844415932841293; 65591260793732317192; 88134920268859644633; 86152183870170781240; 69112769340027084606; 73082560635429922231; 90537844714232787942; 18111118947822511426; 18545553417646899200; 0; 0; 0; 0; 0; 0; 0] 320;
SciE false 425 [308018; 27945173464077902957; 34121016406089919576; 30764216720268769018; 72999854622803130328; 53454152115920846565; 89956915327500319779; 69146387241906533136; 70732331434339588057; 43736891544364030399; 55300375616864368712; 56105177790039206119; 96239432662910726141; 48039829132505688967; 68122835871113675320; 29683731554541736; 84120178222656250000; 0; 0; 0; 0; 0] 321;
SciE false 426 [6824356; 68710291067743848008; 94525474313046539065; 49949930782285803944; 77762110868704771184; 99930283393527641318; 12679457771046483620; 64473367644482964178; 98095123884209125764; 79481367493283747095; 63184034088450397300; 1758918254135736354; 47807550840629837960; 50669111720623564969; 86212666305832550400; 0; 0; 0; 0; 0; 0; 0] 322;
SciE false 427 [96409721; 46839294256383625647; 79878135106144827384; 29199833444124702862; 48954496937379792831; 31149612283224975126; 56514497507600091043; 42819206716744871789; 39219738948291061977; 89647053385941515060; 9017568078547407031; 60920648282271515548; 22942423491057282283; 36466518474280646884; 22447627658580375160; 9291007976571563631; 29615783691406250000; 0; 0; 0; 0; 0] 323;
SciE false 429 [2142847999; 75031395271568274808; 80998934296613266566; 84278265637742438660; 17302812773298152089; 78108985567679373891; 81349740108595856882; 44637440367650752200; 1868899641665490145; 57149392891096588028; 39786703773424752205; 52300331798621215306; 11570963957769119599; 10101080275799400536; 70777220031420825600; 0; 0; 0; 0; 0; 0; 0] 325;
SciE false 429 [3036906226; 25437769076084207905; 66161255843562062605; 19794753489928140168; 42066653527463474186; 31212786921586716486; 80206671489402867867; 98805011577463461365; 85421776871168452303; 73882181657157724392; 84053394474243321495; 69000420891552739769; 22686339968304391925; 98695331939840376853; 7100271245281817542; 92666751262004254385; 82897186279296875000; 0; 0; 0; 0; 0] 326;
SciE false 429 [6771399679; 21099209058155748395; 83956632377297922351; 22319319415266106166; 14676888363622160603; 70824394393866821498; 13065178743162907748; 53054311561776376952; 5905722867662948860; 592081535865218169; 73725983924022216969; 45269048483643040367; 32564246106550417933; 15919413671526105695; 99656015299289808896; 0; 0; 0; 0; 0; 0; 0] 327;
SciE false 424 [96269; 92737226377279711869; 39060947311810240917; 38458477493685630722; 4333893512916820592; 13170609445345414298; 91263162551486214070; 91141522118867005591; 72529757870326816039; 93802852065158531899; 86325304492604833513; 29141337313342262221; 85068449156976995249; 22405378642022492939; 94624235078598475433; 61611077536015005534; 86403077840805053710; 93750000000000000000; 0; 0; 0; 0] 328;
SciE false 426 [2153305; 9798909548480493527; 98987698209095980739; 30768897543574054621; 76083467250499631847; 7197922157417249649; 23640554726840325804; 66403271271076644887; 87075478019871916817; 73748188281928405139; 37797644862887839064; 99628595557417798486; 83680955430261883032; 90274462373547545301; 61132690612865174159; 22892800000000000000; 0; 0; 0; 0; 0; 0] 330;
SciE false 427 [30710106; 83175214352228086335; 60442192467466852645; 68254320485716200331; 82512030620465768890; 1424413065187161353; 12948853924102288620; 74145555918574783760; 36992760634254316740; 23109808785571676056; 37772133140941890739; 96086602956181648770; 36835281075661484502; 47315786805175247842; 85130990072913663323; 53933733988786765621; 62581831216812133789; 6250000000000000000; 0; 0; 0; 0] 331;
SciE false 428 [689057631; 35651055513757928956; 76063426910713836578; 46047213943697478963; 46709520159882191063; 3335090373519887755; 64977512588904257492; 49046806744526364118; 64152966359013381675; 99420250217089644600; 95246356124108500798; 81150578373695515787; 77905737683802570528; 87827959535214496515; 62460996116855730953; 25696000000000000000; 0; 0; 0; 0; 0; 0] 332;
SciE false 429 [9857944292; 99243807065215713729; 1943782056859699264; 9636875914900306515; 86361829169511813694; 57236593925078794354; 56582109636834647258; 723449862505587078; 74676163595635673614; 18248620168508014097; 24854738242346927527; 43799548934309255288; 24125225287336525293; 88367564461254557555; 27047813405285926856; 12728610400551764541; 88767820596694946289; 6250000000000000000; 0; 0; 0; 0] 333;
SciE false 429 [2218765572; 96796398754300531240; 76924234652498553782; 64272028898705882262; 36404654914820655222; 96738991002734038573; 19227590536271709125; 81930717717374892462; 2572551676023088996; 70133205699028655615; 6693266719629372572; 17304862363299560836; 64856475341844277102; 98806029703390678780; 31124407496275453669; 48741120000000000000; 0; 0; 0; 0; 0; 0] 335;
SciE false 424 [31841; 16006636557496820646; 75534473278416043656; 82862303127109205127; 99004623948708217523; 15823346874198378004; 50576524760214126975; 91064336336743055893; 4626435204008413903; 22577380943043144280; 88553411280804522780; 57591362472543057818; 89458101924477678096; 97669924427233209852; 22090352364437299073; 54374529113411593782; 19947029720060527324; 67651367187500000000; 0; 0; 0; 0] 336;
SciE false 425 [718880; 4564162033196393372; 12200923452027409531; 42557624137363180705; 85300595108192401892; 29224143433084885828; 49771429739333752033; 75676545552540429465; 15769633506743031480; 83493123158646485284; 41928168618417159916; 71338406775405709057; 71107413498010757545; 78136813153623898579; 92482084308028793246; 98891392122880000000; 0; 0; 0; 0; 0; 0] 337;
SciE false 427 [10348377; 2156881186466710195; 48703815485214188469; 30248516310491666596; 76502783330170695026; 42587734114472851464; 37370547069591267170; 95909309441493165240; 3591441302734518548; 37648806489021891287; 79858666261469903687; 17192803576493791140; 73883125455245381517; 42725438850793201971; 79364518442122198901; 71721961858767979214; 82784659019671380519; 86694335937500000000; 0; 0; 0; 0] 339;
SciE false 428 [234354894; 87916822822024239311; 77501045360935507244; 73785468780396910108; 7994005270723016887; 27070759185672780090; 25486095022803163004; 70553850128180005641; 40900523198228262752; 18758149718754202720; 68582969603994132848; 56320608782261152813; 81016800351506959924; 72601088081390937055; 49159484417386598518; 38593832058880000000; 0; 0; 0; 0; 0; 0] 340;
SciE false 429 [3383919286; 5300147974614233924; 26147663665039629461; 91264833530774977142; 16410148965817273641; 26189055432622428850; 20168891756344364903; 62344187368265033491; 74401305994187565319; 11159721910158451110; 13783867500658505705; 22046769513469703021; 59782023865239756198; 71218504209377044776; 52197530573959040861; 53081527817129203248; 70583499432541429996; 49047851562500000000; 0; 0; 0; 0] 341;
SciE false 429 [7686840552; 3671788562395049426; 22034287838684637627; 40163375997018651545; 2203372879714953902; 47920901290067186960; 35943916747943746554; 34166284204304185038; 21537160901887018271; 75267310775137849238; 49521403011007557432; 87315968058165812292; 97351051529428285531; 1315689069622735420; 12431088890280431403; 5877691531264000000; 0; 0; 0; 0; 0; 0] 342;
SciE false 424 [11133; 9445111437486836480; 82961082025813457980; 38092969261302316249; 67479771989390097538; 83027975161992373327; 79091716355653878372; 96053292112376441591; 96018783780296720877; 8989987715485084421; 30415235348924077166; 48377017533871699315; 32294105682858516638; 79789376308878848850; 47731475729875588325; 24443443638226518355; 7868824219713133061; 30468845367431640625; 0; 0; 0; 0] 344;
SciE false 425 [253665; 73821721169022559036; 63106527131498676593; 4170425391407901615; 50098572711305030593; 47878181389742572217; 16969186149252682143; 63629327487378742038; 10626110726309762271; 60296783821255579549; 2487034206299363249; 39528481426945919471; 80566812584700471133; 42252343417739297550; 26886410225933379254; 23630093963820531712; 0; 0; 0; 0; 0; 0] 345;
SciE false 426 [3685054; 26331885808142875154; 60118150544254591506; 8772825491066678642; 35804528488122285352; 82259778619475571498; 79358113721433741449; 93639689196602166938; 82217431278214610316; 75685933825562943451; 67442900493869542106; 12792803711532473371; 89348981026169007442; 10283558238898969507; 99118466588819735655; 90779844252977575531; 4580816725047043291; 85187816619873046875; 0; 0; 0; 0] 346;
SciE false 427 [84217025; 8811428115489600161; 51367007657560628889; 84581229947423336346; 32726140153270157034; 95556221394533976100; 33769801551890471687; 24936725809742356651; 27868761134841074172; 18532228656852410276; 25695356491388598799; 23455833746045264639; 48181778120556416296; 27778014689446786689; 26288195009881912406; 45191195988416528384; 0; 0; 0; 0; 0; 0] 347;
SciE false 429 [1227123069; 68517974111577426482; 19344131236778971527; 21350888525203987905; 22907986544721022489; 92506280285365309098; 26251869237435902828; 82016502468521590627; 78404615645465235480; 3415963912460169407; 58485864458557521340; 60003635940313632840; 53210681714279478220; 24424893553356846161; 6449374076971973417; 29688136241532651838; 25411969440665416186; 67542934417724609375; 0; 0; 0; 0] 349;
SciE false 429 [2812848637; 94301699057352645394; 55658055762525004920; 85013080243939433967; 33053081119223244967; 51577794577434801751; 27911371833141754354; 12886642045394712152; 70816621903691877350; 98976437138870503226; 98224906812379199894; 43424847117911838958; 69271389226584304295; 67785690627522675421; 38025713330055874375; 49385946013112048025; 60000000000000000000; 0; 0; 0; 0; 0] 350;
SciE false 429 [4110862283; 44535213273784378715; 34802839643209554616; 16525476559433359482; 51741754924815425341; 24896038955973785479; 17943761945410274476; 54755283269547328603; 7655462412308538858; 11443479106741567515; 40927645936167696491; 1012180400050670015; 78255783742836252037; 81823393403745434639; 56605403157856110947; 94455256409134383658; 15130097626229144225; 36268830299377441406; 25000000000000000000; 0; 0; 0] 351;
SciE false 424 [94511; 71423488537088327048; 88525710110673620840; 16534056439496196364; 98130230583525605901; 3090853013897801809; 33884297822093593562; 94629872991172725262; 32833099438495964047; 7899325608287866048; 90842660356868895941; 11645299074863161837; 78901207518678013232; 62433477599205084761; 89415837663967889877; 37901659367786040564; 81366016000000000000; 0; 0; 0; 0; 0] 352;
SciE false 426 [1385360; 58952108366873265335; 62707228556959761619; 90564769085600529042; 14560836971409662798; 34000089965128163165; 70648347047775603262; 49859652530461837449; 73923679890832947977; 59518456452458971908; 25269292616680488513; 71747041104794817075; 79531872199121335816; 93674474483577062211; 47353376020864197509; 38945731421409878287; 29279698842900039221; 60394722595810890197; 75390625000000000000; 0; 0; 0] 354;
SciE false 427 [31944959; 41139125535854542523; 21690017407683843975; 88511076549714371363; 68017937231654794548; 44708318697457011556; 52892663867634624275; 84897071016381138666; 97587610211635847912; 69972055601298724531; 4819200621686828097; 36111087303748701172; 68608141313168472627; 2515428531318649520; 22553130421146778554; 10760866311681710907; 1713408000000000000; 0; 0; 0; 0; 0] 355;
SciE false 428 [469637239; 84764736370036948777; 57750480809359189148; 1456720018579345287; 36123733307875688637; 26030498178447313174; 49789649195929505987; 2422207826562895461; 60127482992369364404; 76756737383591476897; 66290197054685606150; 22246934525442988694; 61304675502132841941; 55646849932624089689; 52794471072962955683; 2602951857948739392; 25817907743113296123; 73810959979891777038; 57421875000000000000; 0; 0; 0] 356;
SciE false 429 [1086128619; 98730268219054445789; 37460591861250695180; 9376602690288626365; 12609865876263014647; 20082835713538392921; 98350571499577225378; 86500414556958714677; 17978747195618829031; 79049890444156634055; 63852821137352155310; 27776968327455839871; 32676804647728069318; 85524570064834083687; 66806434318990470839; 65869454597178170838; 58255872000000000000; 0; 0; 0; 0; 0] 358;
SciE false 429 [1601462987; 88047751021825995331; 53929139559914834994; 72967415263355567429; 90181930579856098253; 5763998788505337925; 3782703758119615415; 75259728688579473524; 6034717003979532620; 25740474478046936221; 3049571956477916972; 25862046731760591448; 63048943462272991020; 70755758270248145841; 29029146358803678879; 11876065835605201327; 60039065404016339781; 94695373531430959701; 53808593750000000000; 0; 0; 0] 359;
SciE false 424 [37145; 59880356575173091662; 4599661152241654773; 77515920679812007871; 2168731257412968195; 10093426832981403013; 3793183589545285541; 10795718314177847988; 4195954873154090163; 95288723506253190156; 88470283766482897443; 71161149972316798989; 72359937546718952299; 97070484940296217325; 66211824780053709474; 10271632735347223493; 44267952350822400000; 0; 0; 0; 0; 0] 360;
SciE false 425 [549301; 80484300378600486316; 39871797694869050788; 40319227823435330959; 62845632402188890641; 70079877051584457330; 90828797467389035028; 8760314086940182759; 41875269907932364979; 68874828982745970099; 12381346003181071925; 52148470682028993882; 86688025787607559635; 92010269225086695114; 2356256997201069661; 85553773490581612584; 5536693399433577604; 54520780513121280819; 17762756347656250000; 0; 0; 0] 361;
SciE false 427 [12778085; 98842661859543531743; 82283436371129242178; 65476713855330707631; 46043552550061059114; 72138830545602636485; 4855154803578226141; 13727100077179707886; 43408476365007016399; 79320886151097413968; 33777615670116720636; 79435590476978852464; 91818516071319591189; 92246819461898760027; 76867724338476059091; 33441660959444881744; 28175608682905600000; 0; 0; 0; 0; 0] 363;
SciE false 428 [189509122; 67083630617167779157; 55770204729822521999; 10133599085189181071; 81743178755167271386; 77557582796637779163; 35935126249217084690; 22308359994363051999; 46968118236665917992; 61815999047359684197; 71564371097469814304; 91222385300002889589; 7368896724608074392; 43542882654909814338; 12908664034369033340; 16051854250656341499; 10159222804584273568; 9669277026841882616; 28150939941406250000; 0; 0; 0] 364;
SciE false 429 [4421217751; 99561003402061983362; 70068984410717793814; 54942993944424840485; 31069182321126453693; 60035368778512223826; 79883562038066244833; 49576626704178928706; 19332822292427674328; 45026608279705233044; 87055021860385340330; 84714305034682952861; 69206560676578551713; 17399533816970969607; 96232621112716445601; 70814691967929083521; 48760604285337600000; 0; 0; 0; 0; 0] 365;
SciE false 429 [6575966556; 67801982415721936767; 25226104124841513368; 81635888256064583192; 6488302804304317121; 11248123043330936968; 56948880847832838750; 74100091804397904381; 59793702812307354343; 85015166943381041660; 73283677082202556380; 45416769910100268740; 85700716343900181417; 50938028125370557533; 7930641992605456903; 56999342497775050018; 82525031319074292812; 95523912831413326784; 96837615966796875000; 0; 0; 0] 366;
SciE false 424 [15385; 83777694472291839175; 70210219840065749297; 92247463201618926598; 44488888120754477520; 5885372923083349222; 53891725994795892470; 53202056526660930542; 67189755278221577648; 30666300692596813374; 21099614951476074140; 98435134805781520696; 67595868838831154493; 35996184550377683058; 97423570889521472253; 23069394435128048393; 21065477686902912974; 84800000000000000000; 0; 0; 0; 0] 368;
SciE false 425 [229501; 23282806289186308695; 59317710391033956968; 81657169092500136653; 95340306441767870220; 66752682559494212249; 70020307515941589366; 7240086093203973486; 86291776800228149526; 66660037029326323998; 35395957600330168869; 21767785045269862499; 37905590955000402116; 33147107737181575432; 45790446779405541930; 44593459277053172349; 24565700123593035692; 81917213784557816325; 10479539632797241210; 93750000000000000000; 0; 0] 369;
SciE false 426 [5385043; 22193065302143711495; 73576944023012254272; 86612120566624309455; 71110842264067132020; 59880523079172227888; 62104098178562364686; 20719784331325689935; 16414347377552176907; 33205242408884680973; 84865233016625949344; 52297182023532243836; 58554093590904072675; 98664592632189070640; 98249811332515288630; 74288052294816937623; 72917190416019541196; 80000000000000000000; 0; 0; 0; 0] 370;
SciE false 427 [80554932; 72265007504394352153; 20516347252918896054; 61666351467547965537; 64447561060522447454; 30191578382468499644; 77127938095497867491; 41270218714594693888; 88413656880080483859; 97672997293539723422; 23981117715889273095; 40492550889721737282; 4862425205141142832; 34634815750732976792; 72446819571345217586; 52304206245663494585; 22560743381155528179; 52942038379793530111; 78318411111831665039; 6250000000000000000; 0; 0] 371;
SciE false 429 [1895535214; 11958986354586446498; 99084296100313504048; 87466439451756928410; 31016476951630471250; 77944123868624216794; 60642558853952369544; 93364084626642857177; 77850276898366271380; 88245327927407702794; 72562021852334169272; 8608072283349830478; 11040943998233581947; 29936606530552865625; 83933589045381598021; 49394407775562043552; 66851026438878501273; 60000000000000000000; 0; 0; 0; 0] 373;
SciE false 429 [2843589125; 10954764905120631008; 14227058028037030727; 96822206804443183478; 84998905436442395136; 85762716901138037460; 42616214771074722446; 86838720625192694277; 61002087866841080257; 17856804461952236805; 6533455370891340267; 79387046407177326056; 31643609741482341981; 82608996000874080783; 17372730868486180804; 26338480471921358858; 46394241354790144737; 38853954806711612945; 94639912247657775878; 90625000000000000000; 0; 0] 374;
SciE false 429 [6710194657; 98334811695236020606; 42758408195109804333; 1631195659219526572; 49798328408771868227; 75922198494929727452; 90674658342991388189; 6508859578315714409; 33589980220216600688; 32388460863023267893; 32869557357262959223; 18472575883058399892; 51084941753746880093; 43975587118157144315; 47124905220650856996; 8856203525489634176; 44652633593629894508; 54400000000000000000; 0; 0; 0; 0] 375;
SciE false 425 [100947; 41394138894154131782; 40078905060559995314; 59084287188341557733; 1349917461142993705; 2735844576449990400; 32984512875624373152; 64686382774582194340; 64685515574119272858; 34912983916558399304; 40657981937665666642; 57950668240147454795; 7499923348145822623; 14035482619358031029; 86780266731945831259; 41855135016056753208; 23947546995568095050; 13817729315395638262; 25958109716884791851; 4370117187500000000; 0; 0] 377;
SciE false 426 [2388829; 29824207192963504023; 33588821993317459090; 34255380705654682151; 45980928204913522785; 8908228302664194982; 97323480178370104934; 19530717154009880394; 32972358032958397109; 84504330292067236283; 37002501562419185613; 48345376237014368790; 36173386239264333889; 31326455309014063943; 37630776466258551705; 9060752808455074309; 76681496337559332242; 44504166400000000000; 0; 0; 0; 0] 378;
SciE false 427 [36038226; 77707585213025046317; 8169106619918327308; 93090526237936110685; 81920533628048752694; 76696513792646572917; 75471096597901215494; 93038650525843379610; 92729059960580410430; 63935258211348551673; 14899551746642991400; 88388561732641361841; 77472635288058676461; 10667295110817077662; 80555223304661759612; 42283200732260895341; 49274277417809932899; 32929365596242859626; 67045168927870690822; 60131835937500000000; 0; 0] 379;
SciE false 428 [855200888; 77066175080934440354; 24798273607650354342; 63426292624376210222; 61172297359041157061; 89145732353781803904; 41805903856497566441; 91996741135537181170; 4104175799106165324; 52550244560070589446; 46895559346068449627; 7644692851144026949; 50072273656631532374; 14871000627034891728; 71817974920561510422; 43749505426916602896; 51975688846240942795; 32491571200000000000; 0; 0; 0; 0] 380;
SciE false 429 [1293772341; 29702309147599162783; 23270927655067950390; 61949891941906373620; 90947157246950221742; 13404845156011967747; 39412367864653636268; 87553877777328032; 28973252584836734459; 95275769787413005066; 4893907704483391291; 73149366201824890119; 71267606841306484953; 72955894478333088094; 71932516637357170085; 97966906288166142759; 58946559299376591085; 92164224905118660597; 46921564510557800531; 38732910156250000000; 0; 0] 382;
SciE false 429 [3078723199; 57438230291363985275; 29273784987541275633; 48334653447754356801; 40220270492548165422; 80924636473614494055; 90501253883391239190; 91188268087933852212; 14775032876782195168; 29180880416254122007; 28824013645846418657; 47520894264118497018; 20260185163873516546; 93535602257325610223; 38544709714021437520; 77498219536899770427; 47112479846467394063; 16969656320000000000; 0; 0; 0; 0] 383;
SciE false 424 [46705; 18152082253360228329; 77647470080488347953; 910136391099102820; 8771483192376614903; 489103914910132032; 3568092786479913996; 26927483160694987761; 54196565934418312606; 11400429455289325609; 48288436670068131850; 42563150692119885878; 53332162760606971164; 10682963707790667824; 48021936763850608593; 84010386605317002797; 75362117970790707494; 93820177128519074783; 64756863868478831136; 59918308258056640625; 0; 0] 384;
SciE false 426 [1114497; 79824592639365473762; 66965597110165489941; 77932097144548087077; 16210759737918302435; 88305694718403448446; 84823761453905787628; 58711010153047832054; 50079748561901395154; 65092163478710683992; 16663834292939796403; 55400602563723610895; 92058934187029322212; 98999059888017151870; 90086553184916475760; 38252054355472357716; 89474454717704421196; 65086743015587840000; 0; 0; 0; 0] 386;
SciE false 427 [16953980; 89205857969762883708; 86031639217270306942; 30379509968974323691; 84048398832711209790; 77544721112377927628; 95217681492208780645; 74676387332280557439; 73353434193847476019; 38355892270025196242; 28702511234731861704; 50423701239518573907; 59575082100330532570; 77915825928012420286; 31963045277770919563; 95770337730072015584; 56448823397026820662; 56724297652424146464; 6741584257815702585; 50345897674560546875; 0; 0] 387;
SciE false 428 [405677198; 56151720729032449611; 75477348100238338807; 67283360615503696087; 716544602262086661; 43272877498855234652; 75849169221706696805; 70807695709410867838; 29028476532107836292; 93547506250688973148; 65635682630085890893; 65819333195394366115; 9452044078673285528; 35657799238243281007; 91505359309597176779; 23747785391938208949; 68701517244409315580; 91574457673973760000; 0; 0; 0; 0] 388;
SciE false 429 [6188203025; 60138158963452553734; 1548314303662033940; 88521138675628147521; 77665573939591573633; 3823206017943584567; 54453744656204935697; 56881376282403465502; 74003480754328747074; 99900678559196628434; 76416600677129522144; 4650952424279476272; 44904966620644388334; 39276463724533404506; 66511526386385640844; 56173271476285688366; 3820539914789541837; 4368643134813459384; 60678254102731443708; 76252651214599609375; 0; 0] 389;
SciE false 429 [1484778546; 73515297868258765579; 2247094046872320036; 8257099852743527678; 44622553244279237180; 84378731645810158829; 9607959351446510308; 89156166296443776288; 14244224107514680832; 14383872877521641724; 8226598426114360670; 78898759495143379981; 24594481327944225033; 78507545211970408488; 96909615073125667012; 916894534493844755; 85447553114538095026; 15162515086743961600; 0; 0; 0; 0] 391;
SciE false 424 [22710; 70510395707043395870; 87220383682313494439; 66456304872578939555; 30140492032656358301; 7523325031166085852; 95536288845242888272; 11401007754650956420; 71839505592774368386; 50176524635490312251; 62635558448924485065; 34626865068995397105; 67791988801227497764; 90518722144621869037; 59453946097301838035; 30189954155906317968; 47630336021381487277; 61854195032920304765; 39594150689192557024; 39841115847229957580; 56640625000000000000; 0] 392;
SciE false 425 [546398; 50519853629615519225; 73308026930609249013; 77327838612745809618; 18566821099593894759; 28255051373245658138; 44910735729041332315; 79367209469197091309; 67403641874471565402; 54622893265218927964; 15446227388220810084; 72685034743494212763; 83309850769128683474; 81243290776638005110; 32394062738346910245; 46041937417188693734; 87015444699546150018; 96962379805551921777; 86880000000000000000; 0; 0; 0] 393;
SciE false 426 [8380250; 18336015899013076351; 84321578773679448236; 22376497981628695906; 21841560050196213096; 76106936500285679740; 52890583894625772410; 6971861466202919245; 8777563733741934619; 15137590495925220850; 12521067653134989112; 77313210459301531995; 15243867652946675250; 1408471365469674872; 38506109904378235026; 40093083529431330367; 75593991889768805441; 24197967147592458431; 10241604312053542003; 1371747627854347229; 390625000000000000; 0] 394;
SciE false 428 [202167446; 92345842957742113521; 23969964325422135096; 11300286715949558728; 69723806849741060934; 54369008100893511226; 16972219745292956843; 65867503602923784579; 39347493554479198942; 10470508131003346737; 15104133641699731348; 93462855092858722618; 24644784577612885680; 60017587356061890819; 85803213188356790820; 35516844359816681901; 95714538832075507018; 76080528054211057811; 45600000000000000000; 0; 0; 0] 396;
SciE false 429 [3109072818; 2661898533851326533; 83305725035075295639; 1680751184246181207; 3218778622795058898; 35673441605987183736; 22406624906161564135; 86560603961283039927; 56476145218257743705; 16046073988256935396; 45316099313080960838; 83201080400868370201; 55474899243216517755; 22542876589249377654; 85766774524325194794; 74533989419023566437; 45370991104226818700; 77445811756802077938; 99635199771864083118; 8918369933962821960; 44921875000000000000; 0] 397;
SciE false 429 [7520629025; 55265358028006622990; 11682672905703425575; 40370665833323584707; 53725614810367466765; 2527101353238617613; 51366574524897994584; 10271134028764786353; 43726760226626200646; 29502902473324498622; 1873771471230006180; 36818209454344481398; 76785986287199347318; 32654249645502338498; 71879530606872618517; 21226610185180566752; 80580844553208861097; 90195643616651350586; 16320000000000000000; 0; 0; 0] 398;
SciE false 424 [11596; 84161123928881531265; 44797119730354380830; 85273353269201917238; 25590223006044263025; 56969087061937190332; 19533611576710899982; 63422677871052775585; 73892981656021664101; 38402024851855976198; 36902877029050437791; 98392884340029895239; 2085179921374177197; 61122699084929677900; 17865261910068975732; 97658440011780532957; 90281170233796818766; 3375388872877852871; 75071245639295149053; 3003047265519853681; 32591247558593750000; 0] 400;
SciE false 425 [281271; 52555566924390247447; 69983036931966673308; 11652009862902166302; 6806189337993907743; 25701194513590611124; 29874541109887231184; 99744544140412675803; 961855380832475819; 90417143408552502336; 24846350079053024002; 23114577001033592483; 60431391795887141255; 58970541268936741787; 45985208294444697035; 93254373875220925753; 19655493723586290011; 40506153317071262760; 51192250368000000000; 0; 0; 0] 401;
SciE false 426 [4348815; 60421473330574224542; 98919898882892811569; 77507475950718964345; 96333627266598634588; 63407648226446374573; 25104341266587493487; 83504201644790844652; 9868121008124038019; 759319445991074388; 38578885893914171993; 97331627511210714632; 81942470515316449104; 21012156848629212566; 99473216275865899866; 21915004417699859213; 55438837673807037262; 65770827329194826906; 51717114735680894886; 26142724569945130497; 21717834472656250000; 0] 402;
SciE false 428 [105758093; 60893163570733040335; 13621886419469163851; 81155708451214529577; 59127191085709311464; 63649137110069782736; 32827457317598925559; 3948596795166101931; 61657623193010908283; 96845921615740878429; 42227629723937024838; 91080952388630773835; 22203315253565112101; 72923517120214912084; 90438318711206085510; 63644577083068083201; 90465640068445044288; 30313647218794797952; 48286138368000000000; 0; 0; 0] 404;
SciE false 429 [1639503482; 78895445626482652706; 92801878850589961805; 20318433421049558428; 17777479507685239915; 4683381370283214115; 64336657503485044913; 81084020086148433841; 20281620062762333165; 86263431138635044421; 44239982005642841727; 94023571726439416572; 92311384274301312287; 21583131933213137757; 1402536001444249564; 61956665472846923510; 441803025253048021; 95601903106449743756; 97352255351697372120; 55807162869314197450; 87623596191406250000; 0] 405;
SciE false 429 [3997655938; 41761582973708924668; 14907306655934393598; 47685779455909218032; 95007823039811973363; 25937382760637787433; 20877886605239386131; 69256958857278653015; 10658156695812333134; 775837075005204632; 16204403564819538910; 82860000290243250971; 39285316584761237445; 36508947144123676809; 38568447283590032302; 5765013739973545031; 99601194587222674097; 85855864870443362603; 85216030310400000000; 0; 0; 0] 406;
SciE false 429 [6213718199; 77013738924369253759; 25719120843735955241; 72006862665777826442; 79376647334127059278; 2750015393373381498; 28835931938208320223; 34308436126502564258; 15867340037869242698; 61938404015426818357; 26669531801386370148; 89349336843205388811; 37860146399601973568; 54800070026877792099; 8315611445473705849; 90815762142089840102; 91674433465709052003; 21331212773444528838; 92965047782933040336; 91509147274700808338; 82093429565429687500; 0] 407;
SciE false 425 [151910; 92565986940153000939; 13738966477652925506; 95674212059619324550; 28525210297275512854; 98780385620544904235; 92246193359690999096; 67300431764436576588; 81457405009954440868; 65909229481808850197; 77602215767335463142; 47861148680011029243; 53691292842030220927; 2292387339991476699; 71875665600996776421; 22747819070522118994; 71121584845394314461; 61571862522865076847; 77894638209151795200; 0; 0; 0] 409;
SciE false 426 [2367426; 63411242234530184685; 68227698985041463398; 94709534614675661351; 87470442502634302409; 58492847755864875258; 35084786490068457370; 509371514164197476; 98235845456554428181; 46817398531929877617; 79411861091616328207; 2672842097337261253; 13713524715778248351; 92961678826680240438; 78975068247960725481; 92881500805376136229; 7921127959150435148; 81322427192066682365; 48763219683205297488; 36836464985111661007; 97709077596664428710; 93750000000000000000] 410;
SciE false 427 [58029973; 60207011138446358750; 48285194463417543657; 47549006774581978208; 96630333559245910605; 34107307048153418122; 38045863401961654929; 8764934014772256927; 16728713802596411827; 77325662050980775550; 44046423122146920426; 82958795764213171031; 10073865655544394122; 75691963876744099292; 56504259580768592908; 89666884939449455979; 68445410940628124337; 20451483734459355851; 55751795895985766400; 0; 0; 0] 411;
SciE false 428 [906724400; 86505775825060734616; 31208711270880481796; 73751757420778297768; 1179478508937822871; 2760690496247223948; 37473225696219172711; 95089289924887633684; 24328809860345993502; 31063637729143127615; 14742798089053703291; 23698523280171059951; 52279966143069118789; 4322990618532088056; 47451138968957859578; 73614808459060175737; 33792008354616661995; 46489614561539345981; 76313138667628938045; 8366089297766166055; 22576719522476196289; 6250000000000000000] 412;
SciE false 429 [2228350986; 31949227716340176018; 54151467395233676447; 5881860143947963224; 30604808675042967245; 9720590649091255899; 40961154635327549276; 96573466167254666003; 22382610019702214186; 49305422757661781136; 91382647890441744390; 25617757345785767594; 26836441172904734313; 86571412866973412834; 49763567901513967701; 63208381674859109619; 88303780120119974548; 65336975403239264699; 80868962405853429760; 0; 0; 0] 414;
SciE false 429 [3490888943; 33047236926483828272; 80153538392889854917; 43944266069996446406; 84540992259410618053; 45628658410551812201; 24271918930443814941; 1093766210817389684; 33665917962332074983; 89595005257201041318; 31759772642856757671; 26239314628658580813; 36277869650816107337; 81643513881348539017; 42686885030487759378; 13417012567381676588; 75099232165274148682; 53985016061926482029; 78805583870371411473; 57209443796399739312; 61920370161533355712; 89062500000000000000] 415;
SciE false 424 [86014; 34807193240189850730; 79431570246641456019; 91085647039801556391; 38045821345614856658; 53566075214799054922; 47771721100568923643; 40209087735794056030; 10772443968746760505; 46759863189318445744; 75188487370208571051; 33346388845433547330; 62913875886629274122; 74451521656536665173; 73541160873720998439; 15328299843532649561; 63132748525912636631; 1757802007250565035; 61741261541948865942; 38873600000000000000; 0; 0] 416;
SciE false 426 [1350974; 2106889280690549241; 54157419419358048373; 85304906430969088624; 75944917364004391909; 18668758290804883551; 32188093232626081756; 38217123287523586329; 80783828710251422513; 1876773267034536802; 99018891032012785565; 21877854614761290870; 77477139535554865833; 53973496039872081884; 59974419824506798762; 87933792383863576708; 83984663402847961095; 54014292201215965548; 54552797760957833736; 24027240054749206699; 11398363183252513408; 66088867187500000000] 418;
SciE false 427 [33373567; 5190977193662083548; 19449255696884935725; 41231051443003879855; 61778682098564383511; 83637183342033309921; 35427787020742373640; 1126041488093739681; 79708259873743076121; 42826917455556948963; 73133099640925567917; 38398872028216364284; 10583844012158359624; 87190402736226087409; 33970419003747394391; 47380339290668029912; 95506428054103012834; 82027178813219233819; 55609478276159985646; 82956800000000000000; 0; 0] 419;
SciE false 428 [525528894; 19579930188623654959; 67236154130280817428; 83608601646975475031; 42572854597708452673; 62146975123099701464; 21168267491545803232; 66460958846675082295; 24909368287803357564; 30064800876434816363; 18348611452973584870; 10485445142142148731; 38607279330842809246; 95689959510239853109; 30049311733144718760; 6245237322931339738; 70034063707856866165; 11559666273010598384; 21038329012597323397; 46596381297441405955; 33963278285227715969; 8569335937500000000] 420;
SciE false 429 [1301569115; 2448110552821258379; 58520972178512493291; 8011006277151314369; 9368601844010956961; 61850150339299086932; 81683693808952571960; 43915618035655847590; 8622135075979968735; 70249780766721009585; 52190885996097148777; 97556009100438207080; 12769916474176025370; 425706712817408964; 24846341146148381267; 47833232336053166605; 24750694110017500557; 99059973715550118962; 68769652770239440226; 35315200000000000000; 0; 0] 422;
SciE false 429 [2054817976; 30557527037518490892; 31893362649397996146; 74909632439674107372; 87459861477040049953; 85994672731319832725; 6767925891944090639; 71862349090499571774; 42395630005311128076; 41553371426860131980; 4743070781126716842; 10998090505775801539; 71954462183595384155; 60147741685037825657; 36492808876595850351; 84418877932661538378; 31833189097720346705; 60198295127471439682; 26259866439255534484; 9191850872995897285; 37796418095240369439; 12506103515625000000] 423;
SciE false 424 [51021; 50930895965933670593; 32847974022109397689; 73701034031446064331; 52326847249192285229; 51289544525893300524; 20776642000797310940; 82084921492226997709; 22553137987694978414; 77443953791406055463; 57575245882731047008; 23209664195556737177; 71754100580725787700; 19450416687703142442; 43139853976572929016; 54568515062707573284; 13092570227209112686; 2187323150969649564; 66333735770388593386; 5687304355840000000; 0; 0] 424;
SciE false 425 [807543; 46468809108125744766; 92068134091521213412; 48567239485548791924; 19753971725560476739; 63186695906383408694; 26095159794875534027; 62140941903192566331; 70734861482592087273; 33403130474970756031; 86815864026816982799; 71894922249568769890; 510978103638152985; 97315138062482219865; 48334441673888502169; 18827476619027535984; 58267910443315404096; 25530157929985096275; 79512920127510627425; 5224812397393087387; 63315353992311429465; 18957614898681640625] 425;
SciE false 427 [20102474; 66773010577866213771; 42101764711102689756; 38207408389749346620; 16777816181760380428; 8080543201960406537; 85996948314140510683; 41459067937437097434; 85936367151821495421; 12917793813985852648; 84646877796032521243; 44607693049354448020; 71115628805960353876; 63464174955038122317; 97102466769734032518; 99994934706783873947; 58472669520390398292; 61805321482041928477; 35491893533105794106; 40797916200960000000; 0; 0] 427;
SciE false 428 [318979668; 55179597709669182933; 66912966150879297931; 84059596791772810058; 2818831596388312154; 58744883021446434233; 7588118975835940910; 45672051761063701024; 40270285623874472966; 94236537613448632587; 92266290592708205888; 98494288579664106552; 1836350937070429459; 39479534680476846865; 92104461185958356829; 36853264515876713910; 15824625109584618020; 84412382344113028939; 7603450366697832895; 63800896970269518115; 9564826963014638749; 88257884979248046875] 428;
SciE false 429 [7960579968; 42112188835020653482; 72298825596665143527; 30133722340741261586; 44015207977110649519; 99895107976320988992; 54791532399642230632; 17790903225090584204; 30801392121312186767; 15446350338397648943; 20163607228878412404; 64646447544361416201; 61789007160300135147; 31813282195096437916; 52576840814676877523; 97994143886414083243; 55177130074597723876; 74907306888603677032; 54789839109894466137; 55974815580160000000; 0; 0] 429;
SciE false 429 [1266349284; 15063002907386656246; 66644475618990812789; 40716599263338055930; 37190761437661599253; 71217185595142343905; 31124832334068685414; 51318045491422893066; 87873033926781657678; 76119054325391071374; 5297173653051577379; 27022325661266503011; 51290313220169604953; 79733752681493082057; 70654710908254676612; 59307460128030554223; 32823761685050933542; 75117157906128724888; 13185697955790396595; 68289560971969986916; 92972363043168115837; 3383803367614746094] 431;
SciE false 424 [31683; 10827431606511563382; 20086123749325874727; 27123865932214916150; 22111403180527748900; 38508959582529745757; 53619034070298950576; 7791606807794835860; 52513314589540642822; 50333327476474346822; 64279394251156770936; 8137049292861226558; 43648243920248497994; 53788632616863136483; 82290777255826442413; 97254544016692667928; 5130933604977696898; 94102946131081416642; 63458954063559657379; 97522748779766009036; 80000000000000000000; 0] 432;
SciE false 425 [505273; 36437610138160047275; 84241991145771977334; 30297345923106071884; 31621839113813626978; 10223115657052461795; 21821918808101293405; 48039075900151077734; 33368461340536785881; 41382571502675831037; 47824713572287567579; 37432881907938845334; 70159364834974847672; 37656513767319915739; 74102491229652393615; 96842463676591084191; 13510796680912335322; 48355771746004545361; 23036461093484360368; 24167747534827816024; 77985495972854224078; 21897650137543678283] 433;
SciE false 427 [12673243; 30972642604625352880; 34449499730349890908; 49546372885966460088; 44561272211099560154; 3583833011898303014; 47613628119580230431; 16642723117934344210; 5325835816257129001; 33330990589738729057; 11757700462708374432; 54819717144490623374; 59297568099399197815; 15453046745254593529; 16310902330576965589; 1817606677067171220; 52373441991078759576; 41178452432566657053; 83581625423862951990; 9099511906403614720; 0; 0] 435;
SciE false 428 [202614619; 11481665402178957612; 81038449454562911055; 49235715165534825610; 80357484639264418218; 99469378478037179882; 50589442048618655597; 63669435960582171467; 80752997555251138446; 94411172573008246028; 77710142487314599329; 10585645083476979215; 33905298824913916623; 262020695286211636; 15098983090609840003; 33827934313024760645; 17829469045846464315; 90664470147822689853; 37620898487228507664; 91266761465954225936; 72183885114543855365; 80957705155014991760] 436;
SciE false 429 [5094643810; 51002327059391857898; 48698891600656145215; 17641900158516955555; 13631428862023181922; 40700870783117811819; 40678504071252633328; 90374693409606372441; 40985998135365858535; 99058217074969080961; 26595586008766521884; 37526292085230596586; 37622375958477521692; 12124791592346598723; 56982736891940166785; 30677884181002830650; 54123680413661349717; 53737877891796135641; 99813420392906700016; 58003786374253117440; 0; 0] 437;
SciE false 429 [8165369150; 32711115707811991796; 25849513018885315536; 34199321171053472115; 38406630962356054225; 48615952664898349264; 98754514559331820584; 75878269211461510152; 64345801476620879411; 84770254692232314959; 71718742238778352962; 96601496864122262378; 16383542644030839907; 559434020034328936; 88489018551576552134; 53265752814897854000; 68527602547612511931; 3778146957254401091; 6122209035308858895; 98050487077955305249; 89010570116117371242; 12595517747104167938] 438;
SciE false 424 [20582; 36099446049401319943; 10590988743522066650; 82666931273276640408; 50044275070972602573; 65496652431517963795; 95975040341156447860; 63864877113761374809; 74466329583432466878; 6848540195196982875; 8708351446167475416; 74841287606220024331; 61020895994398872249; 18763616984158033080; 25884322210257043438; 27381263938652091251; 43582818659668871191; 85285885101026682856; 38799367246218387343; 6806698335296951982; 59445760000000000000; 0] 440;
SciE false 425 [330697; 45058824800186166385; 66774846905277264855; 27922185072507427665; 62067305468553975420; 19613218946082928383; 14523199557839652938; 73368273069903064191; 16118206004959803145; 61617983195315035408; 75586854609060670523; 29500012360622996951; 62631563533477083249; 1623372657077811390; 32194383805251338850; 36144857262989003363; 8702775367903178306; 73320703014951768803; 24418797949465930008; 78528721044726657189; 86262054928089702753; 53530610118468757718] 441;
SciE false 426 [8356438; 56375096056935896900; 99941429869959060235; 62774096950316005851; 17975678814876644903; 91640887196293301159; 65866378509517831419; 29140108187118172756; 33329810873581552495; 80507319249975047285; 35590687143995019199; 85562768125329878633; 74483773725942133170; 18028495568161430585; 9034817364359635939; 16793159092749048082; 94624375825561703892; 26069351016833239693; 52543101964665261285; 63519524130562504933; 34978560000000000000; 0] 442;
SciE false 428 [134593862; 38941693675769718966; 77362690447846796098; 64329324510523059907; 61393325701467996019; 82580111055751851940; 10942220040738746064; 60887139450547125802; 60109844018639880265; 78519160493219411363; 63849825887692902981; 6505030773559759311; 91046358125172882349; 60712671430669235861; 3114208737294912097; 10956906036524368776; 42029574736593570840; 41526127085369902920; 38450765432633513575; 61189465203749476274; 8656355732509020688; 86958318216784391552] 444;
SciE false 429 [3409426934; 1039191229845935607; 76103386943296576136; 11831555728930387281; 34076956469671120797; 89481976087666873140; 73482431883275219070; 89164140344214484583; 98562836421273418288; 46986253989819292425; 21000354749967833541; 9609395134590482567; 89379680184390333433; 55626191809863678716; 86205484658731463180; 51608909841611617842; 6745336829175188042; 36295214867961794958; 37585601583426604539; 15965845269502012806; 71252480000000000000; 0] 445;
SciE false 429 [5504888971; 72715271338981505741; 4134039316933960434; 51069372480393150221; 40987021190041037210; 87526542180250744350; 47536799666214714042; 50284003527377445326; 38492620362371102870; 61433664172673924772; 81457878806639731925; 56055758638594155857; 13796047319570888098; 93148261514371746716; 17371137355361904771; 78137456893846682955; 59009606726677047372; 98418597791629029443; 72636306194710705242; 52649126833353579610; 14044949459618946174; 76595215066481614485] 446;
SciE false 424 [13978; 65042944260684042368; 33599182023886467515; 96215808509378488614; 58785349715521525651; 59527136876101959434; 17987701277970721428; 39819065572975411279; 38679434107629327221; 1498272643641358259; 9894336101454474868; 11751849398520051820; 97852836456688756000; 36707758067386420441; 8273913442487100798; 99904011596530350607; 63315247655880999618; 27097368810380958643; 35932934100966492049; 7861055459965604958; 25250752135168000000; 0] 448;
SciE false 425 [226250; 93673798597652032139; 88595679909015925985; 77385838951208944158; 47409994566570910686; 62936697340883608305; 59280453762466281424; 74714686672544975213; 291442046696893452; 32798224923597496898; 30816267918818952892; 98214053891680046219; 80572837017544834363; 50086608393548240678; 79003473953745305374; 28612021449478337098; 66947475294836466426; 64702965004369235953; 11013715352184602609; 98546783879112850832; 12197677247422790338; 68778288063339232394] 449;
SciE false 426 [5759203; 97693035401825455754; 42862993841224616576; 40913105863937309210; 19564082794868568457; 25180392954007286882; 10932926523937228500; 5455016065869447107; 35926852343282815058; 17288329180239602748; 76466473799243645664; 41761952190261350243; 15368620155767472151; 23596323763205221726; 8852338304685529187; 60452777770504450344; 85882034222971842727; 64115949876954961064; 4368849598194724220; 38754849505829242800; 3309879689216000000; 0] 450;
SciE false 427 [93441636; 87278820830289273772; 90015802423577432124; 60351486849293937449; 80327755993786113577; 92856001784930230209; 82827403898574228420; 57165595761074762970; 20365565285816995811; 45666893445766219001; 27118650472227544801; 62404257263859088779; 76581688246016592125; 85769266535423400340; 28434742896811119580; 16764858634553221750; 49307296767460634205; 22324546804494448634; 48664440452240877923; 99821742073607393666; 37640703185612409878; 5432970159102978868] 451;
SciE false 429 [2384310446; 44916656355738682333; 45279450266991262633; 38025827670046013020; 99530277075587341302; 24682682959016769193; 26231580910012599022; 58376651269951102446; 73716870119085434083; 57368280619195537988; 57120152886869305068; 89448206768199000665; 62608744487733470611; 68878037966961794600; 64868058139809083668; 27449996988842442771; 55162168310342889243; 44003249059353880514; 8703733652615827240; 44507695413306519213; 70290191335424000000; 0] 453;
SciE false 429 [3877827930; 22071064457004861575; 35655800578463433171; 4586704245698404166; 83601873742123713484; 3524074074604553707; 87337261790830479453; 72372224084602663263; 45170959361405326175; 45176077999298088552; 75423994597443109267; 39776676450152184360; 28140062209688573223; 9424561220071114121; 80041830217661462576; 95741633333958702645; 46252815849616319516; 76468692386519618331; 19574278767996433845; 92602296054706837154; 62089182202915009939; 25468261602773623054] 454;
SciE false 429 [9918731457; 22853290439872918507; 16362513110683652554; 86187443107391414167; 34045952634443339817; 34679961109509759843; 97123376585652411933; 94846869282996586178; 42662179695395405787; 66652047375853438032; 45619836009376309086; 60104540155707842769; 452377068971237744; 62532637942561065538; 69851121861605788060; 2191987473584561929; 65474620171026419252; 71053516086912142938; 60207531994881841320; 25152012919355119929; 407195955363840000; 0] 455;
SciE false 425 [161705; 42469020363387857102; 72769236846884121925; 16323261265567045623; 45375706198135046558; 85228426953888911009; 88961831963816677630; 99322027921744327931; 5808593629005370602; 10151633842452570730; 29264985180574713377; 65645048687407971346; 8782373440594144013; 50340303004202876965; 45887907744320076482; 98945912426110026077; 90031578742420929000; 52384908744472517868; 8441086247424625451; 29137511515745481275; 10934769118897861555; 91446692026508835660] 457;
SciE false 426 [4146029; 74912152675403866879; 93599439530480265766; 76793226351218889611; 12194831208201197316; 4365096223743775079; 61477997571412802708; 18839045991360292573; 2258232791112675279; 61924460555803106737; 9756669091451919297; 19819923697785085878; 27744389093614829977; 37725338642659990525; 39517597768938151219; 40908916250763958346; 88659568391231489043; 24763300369724329275; 74833566748373860609; 67186513541400290440; 13032370207909342085; 12000000000000000000] 458;
SciE false 427 [67754572; 94519532259512126042; 90310238844447086643; 39446470272592116227; 12420897018584508159; 10710893679453713143; 75007592839187927386; 15929699210873403113; 33800730553250282280; 53534579987627135992; 62028790660804905238; 5275400023939994010; 79814471608946341657; 92586958761005448527; 27033344870112046372; 58337306540100926640; 23231493074369251219; 49276763933984986727; 36815137670918064091; 8617325097356654270; 81668260818203991928; 16163959107202141574] 459;
SciE false 429 [1741332494; 63104123669624089573; 11764602801711622042; 53155067511933636671; 21829107444502872738; 33340413972385533438; 20758979993377137439; 12399316371322880669; 48457772267323617440; 8273433437304829580; 97801018409806104823; 24367953069736068876; 52643419318228590498; 44642229917196020665; 97391062954023512151; 81744825320862505692; 37018724317225398164; 586155284218295814; 30098034317021456062; 18335687388121984854; 73595487321923675750; 40000000000000000000] 461;
SciE false 429 [2852467520; 99272308125460506406; 22061055351222347686; 90696398476128093161; 92919764482407793498; 40928623905001323351; 87819658529811742957; 30640336777770271071; 53010756291836884010; 53805817479102425289; 31412086819886510522; 2094341007873747854; 60189254736640983798; 67910963838329382998; 8103819031717152285; 76000605338249011553; 78045858430945476340; 64551761620767941222; 19917295945650498234; 72789386598715144801; 38233780446388060175; 60502678413210160269] 462;
SciE false 429 [7348423127; 34299401885813657998; 55646623823223045019; 48314384900359946752; 54118833415802122955; 76696546963466951109; 23602895572051519993; 10325115086982556425; 22491798968105665597; 14913889105426380831; 72720297689381762354; 8832761954286210658; 94155229522924651903; 44390210250567207210; 40990285665979221280; 66963162854039774021; 80219016618691180252; 10473575299401208336; 35013704817830544582; 41376600777874776086; 98572956498517911666; 68800000000000000000] 463;
SciE false 425 [120659; 37613799218633706979; 42098313182641356705; 30715616457655540218; 34074960506037605849; 66498271280791181555; 97778444771555811036; 72709406086245699682; 46632572354991144700; 19364575986079366032; 58973798731272481199; 39508148590624633059; 53424966005475359913; 61468412633770361332; 90081882791545041635; 54168764825605807933; 18872491339811628993; 64920930539516558483; 91369902501618501016; 7532898991053125650; 62509847288912882214; 94542809263296878789] 465;
SciE false 426 [3115731; 40599342946399584990; 99138794168501046571; 8826085299197752617; 42307746385368300100; 13324519335912509987; 27031607627722549844; 47707577848796880603; 92429536522762476802; 21319123488980700785; 47265233406220297867; 23813345091068617353; 31939121817317720052; 40706021449146240495; 85721379881122375189; 82300392381050112864; 18524412863046325060; 42689240795926946112; 33461245810842760150; 90294343678729818905; 6088194933555371594; 54667571200000000000] 466;
SciE false 427 [51280234; 85864667919325466253; 91783102622576599755; 54136994503604592794; 81858215065982486107; 61765294336252161290; 55839027911219690609; 1497586654422365048; 18843250871236497582; 29944794083730563850; 63864460790804509742; 90963151015469050302; 5610552327027963286; 24075369352403566482; 84800186406642695105; 21725050882468371605; 20808819419942322300; 91395479294537355663; 32208563187862931832; 1482071197578401515; 66685097787974941351; 80693936901173485656] 467;
SciE false 429 [1327301578; 95320095166223206162; 33126315781445839283; 59912337458242615022; 23099960166895842656; 76245237098729254577; 15464849409806233747; 23428163587471137271; 74982558696815117742; 81946606305778534611; 34989431049846891443; 44485008795230992514; 6065894177348742325; 40765137336298451235; 17307829358131830864; 59967154327348080142; 91399879657734475741; 85616579064879043854; 54490715419015824284; 65390407138902853555; 93571041694588299276; 88385331200000000000] 469;
SciE false 429 [2189666028; 46421320155197409042; 29138481984020809561; 61649665303916112338; 75345783317452156795; 27378068157967287106; 84326491809080789004; 93946950143834987557; 64606812201798446764; 18642707375295076422; 27012475767352566022; 24126548360528447897; 79570584364094032322; 48018271347632288817; 60967959563643080992; 77659672681399467542; 38536589231537162249; 2586965876745086823; 85305648121747189227; 3284440136597744718; 97453675546529995722; 15631105680107837521] 470;
SciE false 429 [5680850757; 91970007311435322374; 77780631544588192133; 80424804321278392295; 14867829514314206570; 94329614782561209590; 22189555473970680438; 16272540154376467523; 8925351222368703939; 26731474988732128136; 57754764893344695377; 94395837643588647960; 17962027079052617152; 74474787799357371286; 54077509652804236100; 48659420521049783011; 67191484935103556175; 14438958397682307697; 45220261993387727938; 31870942554504213219; 40484058452837920905; 6289217536000000000] 471;
SciE false 424 [93936; 67262111474634657968; 84791430040877114492; 73019334770641538001; 21933252334104318697; 52651724519123976796; 61688357606498609565; 84831190324161170520; 96622301632243457153; 36618359772146400158; 77851538835210419425; 8235415028924666670; 41481543578069219633; 98663439983840813425; 19027545525465280288; 17459011599958032037; 15756833219678032944; 26048320980836112364; 22474329612304422954; 41783970902481860043; 24844400762680946136; 81648050574433676626] 472;
SciE false 426 [2442765; 82590547103143917188; 62115445671564172922; 61753582665858149708; 68691393166691155108; 82550561734356501320; 12379541508853807392; 58840997192266381881; 3492837901025618542; 69388494534245154815; 9872834548904138219; 1251590210186743118; 62287723671643992625; 37568024158753723669; 65321253329150705821; 52320923550824051406; 69501892338522094529; 15531208752111003392; 30990444712657156723; 1347704505298436811; 68434408145134720305; 98917704363540480000] 474;
SciE false 427 [40486705; 89970045567537584573; 45106347618036346366; 71333286146502878525; 53231755998961358633; 92893267742433999341; 87682128400900722880; 62243029713464494536; 44212003496930033100; 82513061795098468433; 54013237975690772210; 49463877466531334948; 78545282147833662248; 23942633035390586257; 872121475535804203; 24833999581911808014; 91195117681232198976; 26826342740364428980; 86436062903206293354; 8891458969681678640; 7936728715487784967; 90309797580914625904] 475;
SciE false 429 [1055274836; 79116348558172225484; 33872530115722702570; 77547711650720674152; 74681848010579007012; 61842669242008570293; 47961931824844793598; 19310787059076972607; 8905973243067210443; 75829638793906880122; 65064525126587710613; 40686970800673027245; 8296626150204814162; 29386436581608625290; 18781438193104914898; 2638973955990207692; 24817490241544836595; 9482180911953465477; 87872115867891704341; 82208346288924702647; 63664318698199172187; 32448285049487360000] 477;
SciE false 429 [1753074365; 45702973074377412030; 43104851860973797678; 68731290143574640155; 54935034755026828849; 12278493247392171503; 26636159759001300730; 95123186593012613427; 94379751417070433265; 72815575727763683172; 28773204347410436714; 41785894300806803282; 41010717001197575348; 76716010432412384928; 47762859890700322000; 65312181896781287045; 68748595597354215672; 41580640657779774871; 42681523708832502232; 5000173387216685115; 43660353380621089110; 20414235253603301686] 478;
SciE false 429 [4579892791; 67364952742467458602; 3006780702236529157; 16557068564127725822; 92119220365912890434; 76397184510317195073; 70154784119826404216; 15808815836394061114; 76651923874911693325; 91100632365555859732; 30380039049390664062; 18581453274920938243; 66007357491888893464; 35537134764181433759; 41511441758075330657; 43453146968997501384; 35707907648304590822; 71152665157878040173; 99364982866649996843; 50784222893933209490; 74303143150184407292; 98825557114775142400] 479;
SciE false 424 [76258; 73489738079328735417; 42332375061055952360; 19902289811121245496; 84676639674011843667; 5493684114456261559; 46039208672949516556; 58179637858616796048; 68411555519186642563; 84705917477544157720; 21799451634389112353; 99707717686402085095; 94278483966189552094; 52767137146453809938; 74438877684405245464; 702841079912509985; 98648740563908484908; 38175008757868613420; 20690706646281334213; 84709417507542343925; 80252149225372057017; 37629388019233531743] 480;
SciE false 426 [1996833; 25716971119395715811; 95048510956386175126; 71252418881893959688; 45879363980079538020; 22955709172446498297; 5213387485876244312; 23824492643704667810; 64603820238809461498; 29009719875711382354; 84328445697025534329; 53111301513627865529; 7423579207866463557; 55045894190757183105; 11910498988606520844; 16664145572078482910; 60357968647734660801; 59870222562008834825; 51586123132529859398; 62376941921181754879; 33796396170413480401; 57974287942902041962] 482;
SciE false 427 [33325067; 15015540666657377413; 99247901681451181406; 97300647459984282122; 3691537543175682503; 739958017386301484; 19134190078938735226; 24501744215539873274; 95849761884562800401; 16485937686796923735; 26360364228042098696; 72272628957711186926; 99697493224834265308; 59238933000314943231; 29789548085092267771; 7141551921766863876; 9499626428007904962; 82478827188584064630; 41838804424943051451; 18015450796004295575; 70189211487588916593; 44042564405053371963] 483;
SciE false 428 [874612966; 64033350295323525634; 31247798897144705500; 8559470269554343544; 95161423274837652860; 54600617531566254108; 83463718813795008760; 35127777942644501062; 96473264598544136251; 6257305561585471421; 35859215297184036334; 62750062969005101734; 51527693045511038207; 10101655551646200042; 16798557009656129744; 98895760570375514844; 36790267707781431100; 23157482159869653575; 94721932048078416597; 21100561477608637150; 2821522641104415891; 92738118991094379393] 484;
SciE false 429 [1462970447; 89182235266258868474; 26982883815706863766; 11498423493309985157; 42058498145412461882; 2484156963258635155; 99990944465410476432; 15626571062200436770; 67804546732306937611; 13732664450384951978; 7219989611048132786; 12768411243521106095; 16719952570224247047; 20589158713826007853; 97761160935550555150; 3514129365565324160; 57033600189547027868; 820513578840437275; 36723514254999958706; 80878289944588575773; 31306384305153438452; 3468577381843029193] 486;
SciE false 429 [3848297053; 21746741299423512790; 97490315147436704200; 37661669186039111597; 78710262409285672586; 40242717138891518078; 87240362780698038545; 54562222947635804677; 4482364233594199504; 67532144470976074253; 97780547307609759872; 36100277063622447631; 86721849400248568111; 24447284427243280185; 53913650842486970877; 95141346509652265315; 21877177914238296841; 1892921503426475734; 16776501011545033027; 72842470501478003460; 12414699620859429924; 48047723560815269333] 487;
SciE false 424 [64516; 99675202936575242016; 9971529945176272672; 69208567080476054970; 34544224779768212689; 56899729551322079705; 81037959600650924602; 1065809131783843039; 26158690180510894735; 94865115610502261976; 38223298401541847222; 65586823086935839280; 77879687349908346889; 29478177981899279726; 94636041267197257779; 48211654973105021430; 79548115181768359023; 92897916184648826863; 28384369506978645498; 17897026732586556356; 19160310611547857266; 63573472964262539277] 488;
SciE false 426 [1700947; 29752212059654345192; 65361090719295167023; 25656646457780229287; 32622189935984904267; 28318987280975390050; 99086160240349068533; 3713116502542855025; 66725381204991248636; 18106649207856171424; 82025819001909963513; 86358356322462121121; 85328531057434909867; 10517005699716841529; 84200829833672379241; 12805452475157266301; 26932669712638093327; 20373036671304514502; 27450215213447102904; 59825596371961653277; 52937487297232419868; 2662037093813880349] 490;
SciE false 427 [28581029; 56114900902832213132; 17387765713088794002; 59395216650892351863; 3091577437318221479; 6580191235681309673; 99816103088359598690; 72153445380242466392; 88299749966326368025; 25246215452502055537; 32921191883038319636; 54962627512576801385; 701496009397671957; 58832845981380919037; 23766281368385196310; 57763153085524493842; 39815025523383047600; 53776869799430300434; 74275691591539955693; 28382842535844465792; 88017600915700769119; 63048523168304899971] 491;
SciE false 428 [755220600; 9982154486529265538; 20324279367054158325; 91551027254421803572; 84252331577297494673; 73630352753073182639; 94255146714986428668; 48623727129027631396; 26069255016114394464; 39352248288140112620; 19463636848023800155; 43110207173181778102; 85867789501099980994; 69550530674277639249; 85168446150536383060; 85620898969826237763; 58105352411313437278; 45628282059204439009; 87895554770513689641; 62564789150974055223; 4244359971194421403; 81944469653362874976] 492;
SciE false 429 [1271855815; 47113090176033484381; 73755574232451333115; 43087140964709657904; 87575195960660855818; 42818509987818280492; 91816587432002141737; 10828319420789754483; 29338873501523377123; 73456587636341471411; 14993038795205223826; 45836924309667661632; 81216572418196402112; 68061646171450897157; 7599520893141235820; 70460312305839975986; 71768635790545618223; 93070706074648369346; 5268275823528028351; 13036492845078727783; 16783240748684225823; 55659280989568048719] 494;
SciE false 429 [3368283876; 44520409009920524300; 38646285977061546133; 58317581554721243934; 87765398834746826244; 86391373278706394574; 14377954348839471861; 44861822995463236027; 32268877371870199311; 19511027365104902286; 6807820342186148693; 22271523992390730338; 74970341174905915236; 34195366807278271054; 33851269831392268451; 41869209405425020425; 57149871754457930261; 91502137984051797984; 6014174276491055801; 65038959613344286294; 76929845471527119461; 3472334653998422393] 495;
SciE false 424 [56851; 95495155955130868696; 75186366874168190574; 59025975995201122521; 70834794611259441540; 25508373987396455477; 13803344201458210495; 73564874025878109302; 2540321447645518094; 95743093509467344463; 77207840188834145673; 50504268910516642144; 47498670380787093379; 17443682355583863855; 10292129698583923413; 24118549575960071046; 92660628058019837389; 13460970260561536782; 10976855491929311702; 86729552731230175019; 13190760210861466184; 89431297969860233691] 496;
SciE false 426 [1508991; 17664745143236444394; 88657313536117723572; 66784526276536515117; 28282518898677966578; 15769903335228860464; 76921641323548280083; 39392898096701967529; 74024056457062597849; 29141540940259566996; 22415849903513299394; 61456377642748591047; 19175986712846357850; 2588119524329660665; 43234365368884463736; 26623557405813630409; 15065603142545997152; 75733792957816855205; 49685894350075867992; 99913937453906778240; 26005664570771244149; 51854355605924991293] 498;
SciE false 427 [25526527; 77325023853760044841; 58678726501517567991; 2663221845304012247; 4822780455489251574; 53259920341008509234; 97701546454736512585; 30628437619271076609; 40604329992837624635; 88648985750837664233; 66320244786531407403; 76416740821972322869; 26903000973404927249; 32213377657154870941; 21166234664181612545; 29228759606071900070; 4621998050906987721; 43975646992130015167; 28608115876260954587; 41569176322348583590; 22651334676798317017; 54652788467244927608] 499;
SciE false 428 [679046029; 49135314456399977698; 95791091252975607700; 53036824441431802777; 27133504405084960170; 96456500852987209146; 14738595596726037527; 26804143515885388383; 10825405678169032181; 13693423116805148300; 87132456580984727576; 55369939236865971236; 29194020780861032511; 64653785948347299444; 55464415998008681319; 80600832616133684117; 79521414145698718740; 80206831017584842473; 58652457534140596849; 61271854258050208117; 2549056847059867283; 34460022666246081954] 500;
SciE false 429 [1151246402; 57358575804578022355; 56410565218442316395; 30111305223210952341; 87507398542565246011; 42022407379483766497; 46339745108616717597; 31342536629125555084; 21255282676976871078; 48069257362778656938; 21043039872566473909; 76395011070951761404; 3325343900562218944; 42823332337684679448; 64597183354590725792; 68217058233842693159; 8452112095905146236; 93301679345063684044; 60226026019369051892; 44769852137921119919; 21575193923604097491; 34840759872746235130] 502;
SciE false 429 [3069288053; 30091621342927899199; 28975732463449746806; 39726446475271748553; 26643439910984019972; 75983383855502185340; 58618452097201689623; 25154728691801955491; 64930833665324025458; 73894272487959270319; 93838703746050968646; 2272125350634189988; 3956973929491866952; 64235112486529793489; 38699160310999239565; 52315763424924252212; 43436791938558208708; 42534876199483487980; 61109108054315497760; 24948781246386940688; 95521736948710600120; 71759302451432290434] 503;
SciE false 424 [52151; 46203658343483947384; 41270705398604395436; 93270714042126611456; 14108694085153978205; 64431733615054290614; 62233509190453420337; 30715829816909299387; 64531482864305267052; 25985517537358533873; 15930093249706227261; 26811230694001514114; 79160270638078695468; 51818259896954897115; 97902366252405962959; 87840850232737993074; 10652880677944503; 12453306566074331384; 88722048238978677418; 5072788074301847826; 73234047356284739265; 61635808286422235404] 504;
SciE false 426 [1393456; 77619861596089689266; 23647754982538406185; 5010435806699773373; 84318296121719586745; 6763296456270397992; 14462612777252129567; 8895620246826078087; 79320878598484057107; 55826747999709533508; 72525202771500707139; 76529431544909187922; 25456996466163989307; 59649962741068884526; 24418169418781193654; 76274751356594915610; 50444520303540105426; 75362510833794565503; 54319743535056659235; 98315326746685859671; 7278566868574714612; 45480578723312950259] 506;
SciE false 427 [23728915; 22664546285196059907; 78170956364999923804; 38174889167608212544; 19455808745060083568; 16438794849702229653; 16246681656306253474; 75702566693731221378; 61824703258896508778; 23410479498132912287; 48192428616333403876; 99109965770688922230; 17923140325806438175; 77308253114478187770; 45576644844713146744; 67586855895786848670; 4847060708464748921; 66254487563820780123; 68531948735298225213; 8118573807340761163; 21491547109556365855; 44292770322117109025] 507;
SciE false 428 [635416289; 94656887816898305403; 83376272037513220382; 84758727855096658472; 49143031504131555750; 84063184059301484417; 94951426426971082592; 56402832552691608033; 70320640908730041046; 56997087867547279978; 71492463804322455732; 97420784478589692548; 8390388570779124264; 383009927411343967; 34685254964224306571; 81286618607281518390; 2701258414288074599; 65304940210321869615; 69803051985836611608; 31788996488752010009; 19026492070069863279; 39143897830705318494] 508;
SciE false 429 [1084411425; 85769765233459937785; 62412705880496517860; 24592434959695313269; 69130459649245819065; 11252924631391895149; 52473351693195783796; 39607297903516817002; 85388938931570451165; 29858913064674091537; 92393987766436557178; 49325435720483745919; 19087512889354224632; 82987167331653181109; 82852669403390806231; 68719314437458984221; 21510674376839025719; 97830081666609651652; 41910057203128892237; 81018822995472785158; 92163702906725919593; 74179603720751882460] 510;
SciE false 429 [2910206607; 95528546201394238749; 55863325931810549353; 44194973576342695804; 1075084288922525338; 85009382991600798634; 20877533035527558273; 94324973091327564794; 36068535361983587993; 29046662433366542302; 51435484223796847257; 2187192911940791870; 22427979654168389129; 13754185467543955370; 44858467736147324098; 90292713221349354226; 32371763537439381666; 41096626163274162839; 89697978095131681166; 9593603918484205842; 9141333680919973819; 61279052064630358706] 511;
SciE false 424 [49774; 48444686832224215811; 14436014743199914790; 16978528792764650014; 87907883088097900383; 9508866509240580887; 98736318526842717686; 47625457974973771421; 90043099352296959083; 70848720524109668540; 80159070884038479437; 97449284037499570203; 93769086116841621358; 91064689110980522881; 1294112937525615638; 603444216532679367; 37575377339953896911; 28054700400748497383; 1084603671625623616; 15371548763975492200; 83879450313963418719; 70935274843810782511] 512;
SciE false 426 [1338695; 3965943131252641349; 82479697129928632852; 70258329687845117640; 6984494538772904361; 65587104316176136367; 37173603665196342676; 80601389487622010679; 80540591526266512450; 47691361464719348609; 45915660322742946549; 73823006108739492764; 26030316870640917458; 99940326925315070219; 47040634895158627769; 8549534648081820702; 94410891011227222115; 56654904448035106114; 90635261069923760573; 33640413057802502734; 68736205013493223187; 95702188363949729965] 514;
SciE false 427 [22946037; 33000629655363488937; 55002796615160718268; 27101773464503656859; 25534103613132076606; 83587460759907789362; 17442840874492853465; 55336126462908625496; 9868801408898137589; 61260161614557197309; 53331677541739020906; 24119941287301864015; 27548699863987446457; 80821680162021048146; 96586064199308809120; 78187783821565188360; 22248953718746476100; 33216884745057293568; 2292619412487046; 86283980192701904586; 68426594737136029786; 1161702996770737757] 515;
SciE false 428 [618477108; 32265726638720303619; 5620074027028377948; 59348315784444349712; 26836476913081815085; 1242194073375001725; 74204893320710316684; 37841943281368934070; 9753285135128752120; 33408996700339057570; 13035069107241305979; 6228822237645657088; 26006394236103866057; 72431039495562441395; 32773321563286029317; 49885007413801164760; 17831647186976617391; 74565854992219025086; 73490614304777384881; 41870832704756263425; 56126716233869112836; 14411024144775243832] 516;
SciE false 429 [1062401528; 37929153043329537808; 56629483281941255820; 94812111406519312583; 52228997288015146896; 50099433183730647468; 67603532489019115455; 12062655232669360469; 36925505231983770399; 6345482753998235431; 39256670182516667958; 96753281602076303907; 25504803702618770996; 52043791501574529204; 51934772427997862292; 20094390938468221078; 30126557177961843445; 37941763696152692198; 40106148278798150269; 74948282922098182363; 48151336329398179092; 33786848750485158180] 518;
SciE false 429 [2869733782; 61712971603662208792; 42077143485411673681; 47376185239821782664; 92521252876699621994; 45763780500460008007; 44310705008095869415; 51586616825551854085; 25255243026997409838; 35017744689573227125; 40482720657599659742; 84901735182675848889; 52669669255521938507; 84080023259409728074; 32068212053647176033; 19466434400037404487; 22738842947571504697; 69985567163896276402; 44996450374167065849; 78280663750069062294; 60427963325152683559; 70867152031757131382] 519;
SciE false 424 [49401; 67106963705616514823; 50809833270972610268; 39567408763180403148; 3513378648373892704; 33068729623643043475; 10729343564260739388; 86866310913468319125; 26182567035993287245; 32355645064948060917; 94755975435163487025; 6009199027594496548; 13168735973372171772; 85133820036304823215; 60801014966917901900; 59658734389178638772; 28014100884908775225; 72021014292011871100; 18722564935894964113; 98754335095155877565; 47990189037139317015; 32779371088466897559] 520;
SciE false 426 [1337295; 94269958244767306589; 29726807948864201839; 93556677302321756950; 72185514903840542023; 84941725921713214363; 73146848788533772675; 14763039363440707164; 372768943250580792; 98467118269025341123; 84043864947826441441; 44016764208595126945; 58251944065873073223; 34465381290838884933; 28263343786816999584; 3146871358430417430; 49104796300813568321; 18912813274298375664; 80354168345874361852; 68599878789307532183; 2928559430909521150; 53882424092846798823] 522;
SciE false 427 [23070580; 38952050522912422578; 28192137544208995340; 77979892405248270132; 40747828790607892922; 43096734241301302875; 10603444509765294601; 66567196589705031497; 27258805808865143566; 10086245330744448681; 51040528221348440703; 6295945886629887977; 49799699564804217921; 57493956954352441688; 94073989550660187578; 60628959746424306654; 82585113252398030411; 33813674369543803787; 43437825062948241232; 18274489437794823079; 11418280344061046158; 7966298314041160452] 523;
SciE false 428 [625854501; 18340458551099483791; 12146120068446461089; 84524977486582252937; 82820974997373667161; 52727731361784322226; 32725233033805611969; 9102422090250952753; 74455865441271811116; 82611349903859645957; 32528795582774594593; 99845649622519410532; 61909822828598268525; 29798444112598148776; 27244892230355805326; 72735795745435357469; 81044668780749974316; 51196612371639811128; 5750785869201347057; 4743273395925061657; 70565813665655898452; 16974475452301849268] 524;
SciE false 429 [1082010220; 26851169524592618921; 42211250823401881482; 57256953806143869209; 91073170279510178062; 1236835917031104842; 47301547507992316818; 12001520057165977222; 8437992435775233250; 13044906011914643162; 83800773581241868973; 65279862082941746144; 65605909589317820521; 86466581159129515211; 32070109925962797436; 63498212107299982111; 33241811537467626291; 75861327931604397630; 67233995452272513789; 37073554632577202410; 45517348136463064813; 93619390928530425221] 526;
SciE false 429 [2941516155; 56200155190167573818; 27086764321698367122; 27267394186936588807; 79258582487656235659; 17820337400386314463; 73808595258886376254; 72781383824179477942; 59942567573977512249; 8273344548140335999; 42885339239040594591; 79274553225841229503; 30976167294411862068; 90052687329211299248; 48050993482672285035; 61858240003546180108; 10909943269524879287; 60624078146707112301; 87028693585246331168; 12293384960847789791; 21659324228582722725; 19780034625818691563] 527;
SciE false 424 [50962; 68137464690084608312; 35119898149913782228; 61782916802524269376; 23978679546320164929; 38672078254971692165; 3808047902887626438; 12213345271594692517; 52716017429443725013; 48608114415073161179; 69296967016435676492; 2865904681504106556; 24341330038341656869; 34657982575972595000; 16645320502177512847; 75926550765790253829; 15744375689323414725; 19834183068545578567; 12840466721185802035; 39947936164423194386; 23353243867097227410; 35273639473312733783] 528;
SciE false 426 [1388395; 62542526473249759094; 84222384952759841629; 28171270210056234069; 91727810050934173743; 23113211199252982340; 42688437656962194369; 59223152813165012713; 58890692891894917385; 78156705018626722238; 59173041880120827160; 64732617589122597060; 32556220750962962398; 89652104868419387733; 24528280068923821318; 53681197089281673797; 1102749493223215743; 2375014564885245757; 648277543372236268; 31135402477701520156; 78145423201035891045; 12629336176343386422] 530;
SciE false 427 [24105348; 29020798410019731742; 11711824909218994136; 23319647593979414961; 41915425409438011599; 91893014601610394063; 1206658065847305231; 76912313464289560790; 34676244126881931378; 91638118329605237994; 77465398774074980729; 55572914351442401103; 13449108135603699200; 93225758435037435078; 73236597529963576990; 13258512218790061191; 47089701049975165018; 81568591422058662251; 73540759120884362743; 95373805772170944688; 46084349136988565096; 84431470876923079372] 531;
SciE false 428 [658099526; 45157548320385810955; 21410467608164932279; 53182079566654949140; 78981964142798354291; 55662108445913629362; 34319449400080131186; 71774433440216026241; 14188430758190840860; 46278178829066341092; 48021851177272074146; 83260737244111006594; 31648635956444177076; 95097707630789785558; 26404752669891304986; 44887420319513379783; 22703259787804262193; 25756903755606488821; 7283555558439991179; 58180774430520554314; 40930597291012355389; 86305347586765164226] 532;
SciE false 429 [1145004043; 78487924475937257750; 56311683187902221471; 7683260714022210667; 40982706948305550996; 14918193576493717993; 7316258127746998509; 3334889553754137541; 47121596026891740498; 52810620656248804751; 79606441768561584653; 89713431693514052398; 88832636441175712044; 28223525664278166239; 78738382673269907031; 29779330392527906594; 86760799873820338393; 74508092547786456957; 43186058242007230337; 80255774178119872701; 89006584006956842100; 10494866653846270179] 534;
SciE false 429 [3132553745; 90949930005036460146; 81913825814865077650; 57146698737277557910; 15954149319720166427; 80951636202548875764; 75360579144381424448; 77646303175428284907; 83536930408988402495; 80284131226355783600; 20584011603815072938; 92321109281968391388; 94647507152674282886; 28665088322559379257; 33686622708682611735; 49664120720883687768; 16067516589948288039; 90602861876686886788; 30669724458174358014; 80940486289277838536; 58829643105218811655; 74813454513002181716] 535;
SciE false 424 [54616; 69288853873997502207; 19470186067288062935; 96417036491536058859; 44883544875121434174; 78251631597833598750; 34826958985512693531; 82888089074231714072; 36072817700130482736; 2177979066605303067; 98666067227272360387; 58799089330691780620; 29942697316758244081; 46451226262174186068; 52963785820853514974; 56539290474059723581; 14457518490153981230; 14138164036014529413; 99686949974978143744; 88711318200428296317; 92788015614057131841; 36817500605139388467] 536;
SciE false 426 [1497360; 69054474066542407427; 95017954808739505507; 11697316121996418672; 68105626083374826239; 55249294882104818362; 61555222356831014320; 88651514932917854720; 18594530652735496456; 39299375814726198064; 56089839157546623604; 86480529490236780891; 8391641508418978307; 21964501912218183383; 28500702205654750288; 40956739449704582402; 75318080272929995281; 68307508167977056331; 88481060128291007343; 13107889552446274806; 82048920569404294591; 97144760831257215042] 538;
SciE false 427 [26161395; 89361005644803557246; 26219126230982146326; 83760479445772193675; 99217995183166969720; 82531535362293801416; 82113354060580201746; 3394666556991040660; 78879678362501230554; 43251972903940169565; 61046201863460625654; 64763789401362917123; 42552014727198915021; 50137379581435126825; 69653408188833672816; 82320137074607595368; 25151356783757009237; 72180573250959589304; 50049038014530853800; 92721418005153936287; 45459479133366152015; 35582789861767075734] 539;
SciE false 428 [718733131; 46147551940355565416; 8618308194962643416; 14711738558280962886; 90700520019916594985; 19661543410312814055; 46506731278886874025; 52727167800570265689; 25374713313038299068; 63700391068575070989; 23122795622379330335; 10654155313654827720; 27987924041109587465; 42960917864728023976; 80337058714280138436; 59234935858199553321; 52678531006397735207; 87603920628987039304; 70908861579683524702; 91786985174211907273; 83481873314061404146; 29485199003463220572] 540;
SciE false 429 [1258363142; 48264371515051103545; 21139971710241238320; 88879061341642515815; 22385568310331243571; 69766850926331848149; 9652330313907703984; 23283461391269055783; 94112529236309189668; 20419896679522156105; 86322309632456093988; 55138270205556313636; 76751908378267812534; 21607957867029600316; 328933882899662489; 19598593288625337212; 89780261298712144334; 41885573371156245546; 47358728498934067824; 59900206047904335426; 56600946314911911938; 61532192350996342850] 542;
SciE false 429 [3464293693; 64431200352513825305; 53540245499719941265; 82910579850914241114; 89176506495997987828; 64768639237707763747; 34162444764234732803; 4144948798748680622; 20306118168844601510; 83035884950531842168; 9451874899868372215; 21353028611816269611; 74901793878148211583; 37071624107989075568; 19224623002830267264; 37512390836521847009; 75910519450837083701; 96250897431717529448; 69780712814074589068; 6413268539701393059; 88382629373775967985; 14118659196692723162] 543;
SciE false 424 [60778; 93978191169144176968; 30123371060633604651; 81089892858662801333; 51387531222949388999; 6451299738899741828; 26560136207554161742; 10243844591185198295; 39436435635162113733; 86097426281009620920; 13991319367555247629; 33964703178450928369; 94865587117174670335; 34540263664364977529; 69526295887506544053; 69822816612055840603; 78738296386620727796; 57135243073193826846; 65989467426586498515; 47592813179952113779; 40110313825707010245; 34663512004890553123] 544;
SciE false 426 [1676718; 14772384700970616691; 44787913478821864451; 57266128720647842492; 69960761429144063026; 10906548021391050557; 65371334623265889610; 67667206155218594361; 42114628161193720787; 13124189368316057411; 60935774707451536292; 15216334865848119074; 49208652468237023734; 40635142666068266712; 57500504717533369849; 35595755997164876573; 95272340691414205148; 51174985434356951284; 25316973865002012101; 10894304021973215474; 24098377192616907568; 50480833431051199278] 546;
SciE false 427 [29477785; 79422717034925829626; 9834964407298256128; 28598036451458646754; 22952643130453664546; 28880373366374786708; 81666060663768444919; 68264626724821173266; 26671283053625160922; 57251746289666146267; 85789893264295100229; 72881041548700259425; 9809751829715112642; 52027877217014101902; 20253505440673866043; 64066056847082692836; 88073747511052981337; 10592890499006020630; 4891701894451780005; 82514392276775183009; 53502205467899968993; 11803322371918264829] 547;
SciE false 428 [814885019; 79378964671719712043; 66925950707426123464; 31338558234851451452; 930054564014630689; 582338396050571019; 70468626907222350788; 86262191436236859650; 67709286340148302545; 78356033001603902042; 14786507821446637985; 95138744802185870203; 15405099563193534921; 48679335709177622311; 45245292721217746786; 99537414622130014941; 2357576027303702176; 71042921097478324147; 4049298390977881138; 94631754678982720481; 11811315611817078293; 33685047490882849112] 548;
SciE false 429 [1435568168; 17886319600887902790; 98962766635425073447; 52724375186036096930; 97793720453093463404; 26474182942452112719; 37137154325523267588; 54487321498791138067; 18891484711545336929; 28160044306741323244; 67967801971171381187; 79306723421702634002; 27734914107125985690; 73757620468586762637; 26345714960817276325; 30016968452927141156; 9191503788280191117; 5873767301593204683; 38225882259801686283; 68450903878951412564; 35557406286728489964; 84821799512419497194] 550;
SciE false 429 [3976638896; 59369347597992194773; 10598639452239482505; 84932164186075083085; 80538666272391397762; 34841811372726786576; 15886899307245071849; 64959494208835875095; 30421317339923716423; 42377441047827041965; 68158158168659593371; 44277074634667046591; 39176885868384450416; 85555158260786796879; 88797028479542604320; 53742583355994472912; 19504971013242066622; 34689454955694221837; 55760576147972059958; 5802962833435675947; 85639220185667342071; 48383031755508303671] 551;
SciE false 424 [70199; 28342394641028483418; 44647939279288472286; 9158408221946597165; 13992482112930156270; 36046854587545885908; 31197726006846518087; 78507984430021290886; 65148553793602394566; 97584187026166599650; 70666483625516390280; 54008308098775321258; 80271136237299838460; 70027706747640913892; 69296218305461583964; 81230717829757348137; 20253289464535246901; 34562417227221047907; 70901739245642504302; 45927217249199680724; 7439698757167421023; 15928107785996157313] 552;
SciE false 426 [1948553; 5933090980323016175; 43882193333331597346; 42786616760451176790; 71204463946473471784; 90355072487572636125; 42231784580660550085; 20632830152162329578; 79669906445496562621; 4747764946113435250; 56318397497502643200; 75200695766570986852; 82978196674075508380; 70425922027547785530; 47114510543954975876; 11706333865844437291; 72697557435796488612; 64494997832928290168; 70040322682312506309; 37944843451788383481; 21444963217890976997; 61502707685560199068] 554;
SciE false 427 [34467848; 16115768744985358457; 22138186130639892470; 96778436975779208083; 70308717448706728746; 99005602485029980981; 18083469361640381102; 47420355140453825345; 87939912658775732385; 13835829847800428496; 97243460128547627745; 18079276498682738072; 13127892514220684203; 83604013091688721312; 24443187981637726722; 84282454410857935366; 44365127086806228560; 70146858565534522685; 12753969610469612507; 50263669357043235520; 52892089769203722371; 20700922924113240885] 555;
SciE false 428 [958688105; 19080762318923958315; 90039119999145894442; 51015446141978981030; 32596261664948118172; 54695663885736973707; 78038013684990641921; 51352434863866152767; 97593971184308809555; 35900353487810143277; 8651568771300454769; 98742317152925531592; 25272763645150123306; 49553637553510480991; 80339187625848131049; 59516261995463147529; 67198258411872397421; 31538933800718763000; 59838759697753104214; 68862978279884672757; 50921903202360682826; 59332181295617941849] 556;
SciE false 429 [1699264914; 34507399127778171941; 1412576240546698818; 71176942905914958526; 56219770221241727226; 60976202511978062372; 21515039528870788351; 97823508424373589551; 85437694077643606587; 32106411496561124900; 74102584337398047837; 41308331385058986956; 7205100951079731249; 11677845420253960693; 65049167494739927436; 15125002455296213565; 67200765379547068042; 58240127280851968376; 78770701796151896619; 87998899302231511162; 7580025621743512900; 50555500158782775663] 558;
SciE false 429 [4735919239; 64258965855484354080; 54793252795780718546; 16303941376166289; 81025532624843703772; 38196579595540650116; 43507787603853771092; 27681028227498794673; 80114217650485519203; 47347746229782107788; 80738749730224246563; 73787046735452126065; 72847452407041609134; 8794969514341776099; 50875586871689767385; 10334257587948796; 57959396554649643261; 29802332975550689222; 95603472906900334820; 56183112702630283422; 9554201819661773163; 37100975600352632734] 559;
SciE false 424 [84113; 61326008116256825019; 51108019922523907061; 59152623258673842790; 44706482878625951465; 49771718322024342914; 8742464994456679104; 2342292263667006492; 68281679165856843358; 52607239267369079775; 68258668077924701203; 36795194762403560419; 85432556652497078446; 69683128053348302571; 5433569933790989626; 40808948687621537162; 57150076437886287579; 86810782886300402172; 43465099149738909518; 88268405945515460459; 80252275211268276303; 88857502497257859747] 560;
SciE false 426 [2349015; 94286272447064320239; 62395177453386707236; 39881608086754922578; 47974588664181922477; 7110145503479388162; 45775179862651511470; 46176929790000839402; 15820536651954640817; 52492284482129971925; 46324846419866191226; 29561398375180784254; 52860132336393892638; 13050762304879113520; 94535634291088358124; 62296005125791763622; 60310347860691106223; 5760381957155873141; 85458619322561822566; 7099866823900504620; 57735938884102552239; 48903202083897774905] 562;
SciE false 427 [41804465; 79026033779642034697; 685901494381809610; 98853759560899866852; 19121990677097878352; 36544006046098428301; 45005102244969514699; 64119255042502226863; 35994545430851149187; 45797915882432648514; 24558034728576498073; 87211796914569528667; 59980656291047988008; 32514642514106377814; 484257094121844324; 82047497747903969798; 3587989629484927194; 44959094491299879700; 2154277420238030884; 69397754921183848521; 85380780000333323032; 62178741137156294455] 563;
SciE false 429 [1169809939; 54563678638031479332; 72798371786580203726; 61040827203951444082; 91345154762597393581; 40852460732735304903; 96039571600452712289; 96111035420418022274; 78627252673411127127; 41157672100726018880; 69773517093363230695; 21576390840030558755; 24345903524158533788; 99279627829798533430; 78745876962002346062; 23410552644298284056; 34553234624170899082; 68670214663624824643; 58392422635787637903; 35733678302451301047; 52497564283071015265; 53794637781091903106] 565;
SciE false 429 [2086042842; 93399085604137531380; 64226484569652299588; 32802602088903355924; 34187334787184129783; 3545901700311572242; 35754602023978783512; 9550826620861120481; 66127816999472344454; 15316002533389160860; 85445932955967253886; 21868666037019480513; 23034748923294601615; 42480661453908252918; 84164428996680031808; 54170137620408092921; 99040682511297867003; 3458815115863997031; 7498443269877741146; 22947970567074041240; 50500922016632819327; 82719182744099093329] 566;
SciE false 429 [5849049697; 72818393190157396663; 63991858932901018633; 5204136019757220414; 56725773812986967907; 4262303663676524519; 80197858002263561449; 80555177102090111373; 93136263367055635637; 5788360503630094403; 48867585466816153476; 7881954200152793776; 21729517620792668944; 96398139148992667153; 93729384810011730311; 17052763221491420281; 72766173120854495413; 43351073318124123217; 91962113178938189516; 78668391512256505237; 62487821415355076327; 68973188905459515532] 567;
SciE false 425 [104510; 74643099294188767290; 32217017746876939580; 20937523410364654058; 13180952785472837924; 90213007649675185609; 76934211305561401337; 5395598496413705142; 13613123003631673564; 45715307331726922796; 95912880841241093959; 41969955620168454675; 97371284040921057059; 54093278281138840803; 47123396637892733669; 59360793923894782445; 45539171938193816023; 13685203286637304786; 25125685672007820874; 83142609693325410409; 46614930096193033304; 24832414231055479364] 569;
SciE false 426 [2936222; 94825954833381459013; 12514723913184316311; 35379212476281918124; 64811276338454119457; 88933539676439165615; 30894059324717136307; 84780238698905249235; 90971354404210261929; 8980305756972822307; 39055131527904341709; 4499156741008476702; 47566108217845637919; 81037191865852794318; 91127652151174625888; 61620760487137188692; 98142728618906668956; 69754362238805698309; 85539564980815826971; 13742691532539152765; 62928768886350508248; 31650024540830540676] 570;
SciE false 427 [52568905; 45478944976949947032; 5159926679100608845; 31574275413420991240; 30019251092837476225; 77142847786618361713; 97908286697384872538; 13986043696093686494; 47400870826731802921; 94799587858642166870; 44179063144270261588; 10887676944732702014; 77755872583291700949; 8918975412836924146; 3068508860045035805; 58479343719075570064; 6203484911489459637; 83657253178564307484; 38219893019933900040; 20732675742681435961; 47309838385095752036; 90704358220906120381] 571;
SciE false 429 [1479856365; 92281236024255342615; 7420852244895420922; 31123088046086734822; 64883274580876206776; 22503996925339470115; 70605899657436699155; 29240304248245614898; 49562619721972012261; 26074101514302442924; 83786290063788221358; 67574997468272258047; 73318541794201511584; 42744700389808336731; 28336684192011447862; 56863285517143101262; 63935223928961154175; 56198568358071948167; 11940750331176793453; 26316532399732993877; 16099518720656157151; 51612368578592501105] 573;
SciE false 429 [2654729725; 46686721335972325118; 60576297294580746688; 44500908377760057635; 15972180188292549401; 45713813224227266555; 94368478217936063176; 6295206652731167970; 93743976749956047558; 37379186861429426957; 31042688785648210199; 49827685709001451746; 26671565456230897929; 408258348264669374; 54959697432274308182; 3206857813316288235; 13275988030217711710; 74691285517497527961; 30104597506661952030; 47000125005412516054; 39146838447335477863; 80570090155759079271] 574;
SciE false 429 [7488073211; 56943054282732033632; 27549512359170829866; 89482825513198878202; 60309369379233606287; 69870224442217718785; 47265852266629697725; 77955939496122811386; 38786855793178382041; 97934953662370361199; 67958627722768400074; 89929487189457625721; 52991821478659648617; 20288183972430183860; 29383622011577926184; 59728224716744092388; 95512233080543440128; 34364755891844057725; 62420196675754574873; 51161653942648949018; 43463564726520155186; 67158585007678055595] 575;
SciE false 425 [134594; 79708117016771733796; 88351331218272835243; 85710416196054752434; 92210259789535546432; 25465387690330468322; 41438634481845649358; 40302639166977293470; 21612652819621222771; 61120955124773874471; 94673563864321432364; 25711456263665446373; 60353572248368630906; 52500050698698257018; 73728966456659816307; 42482902587691135135; 81352123092593132037; 98373486848175737124; 66763796303093587760; 96794482906337774414; 56395764744709279908; 72769494903570896985] 577;
SciE false 426 [3803941; 19147727071575627873; 8519595152278458781; 57238257275360705030; 12692237159644650671; 99415094074016646601; 14302011052951447886; 44469601617264030388; 18428503722742934618; 7732550956460484143; 48943722982883166347; 23804884179492244473; 86653719845311159101; 49753906397457994533; 40102926879981881586; 50177541938156105998; 93358920214404916067; 58519857295993056781; 32461709459911283324; 3574390120202865666; 10136479490881072238; 83482916561183900452] 578;
SciE false 427 [68508751; 71431561536812502613; 70827590100873139123; 26601843791868989375; 35022232873593134017; 61882334378208376108; 92264951259435523427; 14043335991442376340; 840285187202390750; 10566158509902106220; 88844006939609073406; 87131238205712204164; 19968274419633131421; 22525805637412822537; 28043926439846500479; 23797417134787784129; 8230654129904207333; 72104805721450196455; 82772318274636170332; 68391799325927177013; 5444255057023473542; 39672905917586565527] 579;
SciE false 429 [1940010007; 65340806503570215273; 44993527662013978601; 91511210433959565364; 73040951418771842717; 1697977748489766582; 94025637005238422086; 79496824804655497973; 98536898598896655219; 43600987794846913179; 61298721270414837091; 40490931541044681671; 93397121108691141763; 74492262703577212034; 52492708790759609115; 90546388459614059456; 13049309346507194468; 45127220956458958475; 55471824554754495258; 22938961303461489711; 69604540349346841805; 76287446203789230643] 581;
SciE false 429 [3500797212; 60152794531118883560; 49289854154617409198; 89354217764505357080; 39636099840609148300; 32187286726448019165; 94739009357155247126; 87614469162705430974; 42938573066042167330; 39930699855997627887; 39928754614023651091; 12406272311893632790; 60378822843253015624; 61068668071795231655; 3044641076156174489; 6048015587655768996; 10586426038104994753; 14555572366105038892; 79665463833908304000; 14820945554878745367; 8201433413899498016; 47285492388673498450] 582;
SciE false 429 [9932851239; 18544929298279502200; 6366861629511570441; 80537397421872974667; 41969671264111834711; 12693646072267604904; 65411261466820721084; 39023742999836149626; 80508920826350874723; 51237057509616195479; 61849452904523965907; 99313569490148770160; 30193260076498645830; 37400385042315325616; 76762669008689198673; 43597508913223984415; 38812463854116835678; 47051371297069867394; 84015741720343015722; 13447481873722827323; 88375246588655830045; 50591724563400860895] 583;
SciE false 425 [179590; 89700645838359446398; 72665328569518131873; 9190323871371319124; 81822433331921823249; 30780651207809066783; 38321310111180022064; 17760874622268046788; 60898822748798287963; 18404948444902612678; 31062358345111699413; 30097466441769600143; 36215797433611858879; 70154252822672083095; 38390306190087206811; 75128880263199646740; 94950023083655754786; 23083636700862381188; 49520046838294679495; 99520760314506965279; 63733130733534133044; 24824505745759538950] 585;
SciE false 426 [5105485; 53694132093659315664; 13083272566877568947; 20708796222274842708; 97905372411029753483; 4151924534081145548; 92099221388393945850; 63737658203901915780; 90817781585304744349; 60788535847559942724; 47652390618792925318; 47670847174717936467; 86239519335679320303; 95681223797911750077; 36701856011870466248; 11814609119581397127; 98950949606421016053; 53873384404846693911; 84094784091244256310; 8117712005683093533; 24447624876746569096; 64339004146425588042] 586;
SciE false 427 [92489311; 95832606755114895344; 22644213301837914642; 33016793756229349281; 38553165939738973393; 52035372021669393442; 35474707257711363051; 46850430468044096133; 62893715631118301039; 78548449124845529329; 97114547732525197850; 195217511344073831; 51135678310107323046; 29440203676122794122; 71007687894911508051; 91373335547818071588; 99261888082713714908; 88072900944126312075; 2824121721759940437; 53191561971087119013; 22562327770078517787; 84620459066162559492] 587;
SciE false 429 [2634430537; 6172160328206882691; 50968644508825576758; 85738850693818837833; 19172164091352797249; 42393059585871103243; 23198236411276058928; 88631633213388542948; 61975298017248084397; 66884497340930445829; 88633559297149464333; 98157142154455217416; 99591977210529276841; 71511479722463039921; 38157702125160584028; 96338305704000918042; 58689996913244283625; 98666352900894058509; 92908591082036256001; 88739394932476263154; 14974436401229653867; 98926139555603429930] 589;
SciE false 429 [4781697428; 24545769239440089296; 50705827705020187008; 46968237197057357847; 63198679084504924445; 228733520307640969; 74042365223677469760; 92167255197879770108; 61605098128816163756; 90954819754513866359; 50822117771552728845; 10092745336488617089; 13714568632548601493; 42058530055548456144; 11097464166924966283; 94001447822194301150; 91839613876299060789; 13368978811330334278; 96007093014988920620; 40003753905204052983; 76472345713059369631; 64877733720604325752] 590;
SciE false 424 [13646; 35018197971790500111; 65234202017578555716; 48761088127246593981; 57997593311809993207; 48975201596048654812; 31479994166864610409; 98525163111860045352; 65247385032043729345; 7717992461696226019; 70939881121837159234; 22525002453996360078; 2622003886441950541; 65404008429464962358; 54679275656897008331; 82527003032423546724; 75546060014184010605; 38918261091708026631; 22308143266501804947; 80608977670065750227; 4313849567580558369; 60703618437402898025] 592;
SciE false 425 [248170; 9652593925423526940; 63448871632457890547; 70573957651510527276; 87229210011444485805; 57869561871269703966; 56632952798755108860; 68059183480544769960; 6863717304592885558; 89898360555145259269; 66405847667912343586; 62706073813482963759; 22692621786112029272; 41750852837709882964; 87387935958390263405; 75013648675141971884; 22973266475960179921; 25495603850000308044; 34907802768127477924; 98019876194827680090; 34985738914742507781; 28388257154380099364] 593;
SciE false 426 [7096102; 9462945331060058059; 21785049140848972573; 55765826168228870421; 58748522141196467894; 67104829945300502403; 69596966769597413192; 33084818167223583379; 28640216662739259440; 13356080082037530248; 88738183355322801797; 13001276078107240573; 63442020949814281660; 10084383321780426444; 33223341586444332549; 14041576860244296872; 83951207375685514802; 37495767688173848236; 234498580938572859; 16668388434190118062; 43201775141890352195; 65881587449506973398] 594;
SciE false 428 [129296620; 29001435145657536070; 56862120510560975354; 69031936436984711250; 46418415962577104706; 50041734931515766581; 5768408151411716414; 58834593363825149195; 75996715692893376186; 37045849230680079494; 97446634982331008632; 69864456824624118557; 22855950564367250929; 52194328446849024699; 29114634321327234395; 82110959748967351683; 69071833975253738973; 83209605850160491105; 86965242194415998914; 68355497505221327072; 27569974580846554048; 90281977432031768907] 596;
SciE false 429 [3704165293; 39657462813350306911; 71795651523163683397; 9761259815470360068; 66728557704556241018; 28721231446862254729; 29616653729849686396; 70275083290710523987; 50193097949893427749; 71873802823590789919; 21331711478502538101; 86666112771979579437; 16734935803055026572; 64048093969382603941; 42584308123941590651; 29703121047522967622; 22530250107838726839; 72790733226748779193; 22408259249935032485; 898762647241628589; 51326624066763846133; 90188648642640114204] 597;
SciE false 429 [6762213241; 16775058117889136490; 73888902702339011050; 30370275654300398399; 27683154842782576149; 97182736918274592189; 31687746318832768482; 97049232928055302938; 24628230738323574547; 17497914764568157587; 16459009575911751490; 13911091927841400543; 5366214516407223613; 99763377770203991772; 92695375005414358901; 44403194870992493057; 2456916905770548331; 41862385963393684836; 98282166767956743237; 94992519523075405880; 1909670578274776757; 61747419695261513883] 598;
SciE false 424 [19409; 82613739805105141955; 60821740209213981377; 70100079149001433064; 68675981657642371874; 70293582499252781558; 21478151191265544412; 35671872241436443323; 14569451011833257441; 56140852618726795615; 73917667778168147353; 29965378130430925172; 99625075691063608008; 33924063612012399564; 84465307141774569453; 93501279644354289020; 35034046058510565074; 92864017423442108163; 60297249419278469659; 57022144709516271546; 13380904951510109842; 55374164588518887434] 600;
SciE false 425 [355016; 19516130690551189179; 66576379167391872798; 8014094439471850770; 91596203365629246085; 24787352093688209416; 8993913606681738720; 34535595084728722903; 40425792982113761987; 66372668640525139828; 27332614098002735366; 95323230332326211673; 52851031726262111379; 23973487577332935709; 56807866507187784253; 84232581167730727105; 88549378988137552953; 78739947775263078168; 45394159813755317729; 1999237107274961458; 80870100257705359425; 77977491739534001229] 601;
SciE false 427 [10209568; 54827137485304668649; 92235350046554204670; 72641632374753792025; 23566351919887606093; 74424394606963099620; 97507526605676360899; 63404798995569187974; 63531232224293414261; 30088477450294493878; 80693251316445507835; 61788896606666640996; 2789813499457812386; 44057459918522171108; 28751556573423532769; 81673092930356024704; 27908226776557229412; 46473164730548894055; 16353194540475040933; 93648117205558833266; 38356004494317777183; 26810573560934790388] 603;
SciE false 428 [187093534; 85000873920476697683; 85751821215516964588; 23427769601665356272; 71199173686612686925; 62934553373686362279; 39792470721276305622; 258609652036970094; 4392901573952567498; 78396373556748689500; 4287629647441538384; 35342385135913551949; 52493719740132696859; 34027953254457118942; 37745649287962301774; 90570275394093184801; 65522726748490406645; 95952477563642194775; 22722221849052443193; 53597955533904688792; 18542835810724417385; 94138146734418647935] 604;
SciE false 429 [5390652193; 48728592240865047159; 264824580620066143; 54781893870002189324; 43033813700656017496; 96080352476516599874; 83974047797118555006; 77733869660531250607; 44490614426922729966; 86716093755492768010; 6036695083228137206; 24537408319986445902; 73021527713724940040; 62338836979706345175; 80821870767625302463; 23393067227981043859; 35543738022217129781; 37830977729816061126; 34486717370821613118; 46205884535063964650; 51970372999786352765; 55982840173569325062] 605;
SciE false 429 [9897247993; 56546230393217307476; 6271342300847426717; 59329011928097346826; 46436288021811138365; 79237873468008564580; 15021701155516567403; 93680450592755717974; 92384493262090820685; 67168161152005674552; 26815608349657380532; 29612173689826898129; 86917774253019663859; 10078727160781592051; 76744847333205763892; 51167568347529476007; 56152244995142511571; 25886063116672103609; 52005535814874244938; 5331847743558037106; 60916014387321679716; 29907962250746475781] 606;
SciE false 424 [28570; 45662548261538876584; 74994271403570277286; 35056080344037511011; 60341948079212613476; 89273389225868125537; 97933665062453324728; 34153591989509200815; 62821945800256462690; 46882439595296904111; 67045331994483941109; 12719310048264095928; 16328447014096882742; 18221530395835992443; 62943178355915068414; 10305513983256308299; 53245458381811517750; 78784130504181968025; 12396962779602065354; 54952784891188035839; 1264775442976898867; 66965746709052919917] 608;
SciE false 425 [525543; 86845832604833879839; 2697893008276174998; 35870420370533381969; 11648525766893958171; 44722357531081151254; 77920597652331357929; 72914904431926475328; 62446845616592217022; 57840916629357171501; 31872543908803366806; 90626492406422929808; 29069605333812835344; 15091825180412237502; 53794885151393393226; 6269236997879253815; 17600151684209242067; 36443384549951495288; 70166551493951769822; 40621063121115182931; 77036094640363966781; 19293548112795514637] 609;
SciE false 427 [15199482; 92475675138682343086; 96952386699387516338; 49834743027955858173; 1916378141110369706; 93443068161842786205; 709813225168755477; 69710938418894833914; 21275165736438151329; 41457864697952987408; 68116621065456670055; 66672945676499033782; 86733811499541618840; 93854170584747980010; 85770885346816396302; 82533439092356015351; 26583859123727443419; 13157428224806989365; 95184198748298768620; 34881562112035066354; 72860535663710197600; 25777249216153396068] 611;
SciE false 428 [280114881; 88828778376457954201; 37976973411201274125; 18934057494292589539; 8664233754479705381; 37016564066253618797; 31678548692613776545; 63644062216811350156; 84168713643651673034; 29208563447372410202; 88065903392194508081; 3920452623421587818; 94099642922241238432; 43942821159722588852; 72673785692678589491; 41503319869642283488; 80880847683526021905; 24323965124146988877; 98771946276293315342; 51026643554392502633; 60238443313994294375; 83461144120009301981] 612;
SciE false 429 [8116523881; 82010524056371208441; 72574497472933724758; 11752776928428264392; 23345927352937423502; 98598398424047833473; 79040262240115425090; 25641115689841310189; 60938503257972809907; 38499748706895276235; 74275648953861809726; 3352991250484040051; 15855340755224461061; 18127092255421325798; 1652775199955625708; 72856475318112197575; 95780772070454785816; 26066672046932321418; 28362131591542443266; 26754167826725433425; 7526044421245518537; 65051081425913500817] 613;
SciE false 429 [1498614618; 10233964314050054977; 38176807749926816569; 76297207594465354034; 11353650586466423790; 33038617754456860565; 64480235505483704519; 15495732859940723339; 10302617993536450733; 46265814443442394585; 41152583148240618233; 55974421535305494831; 33433089633990625613; 55094093204515850362; 8804753455830453779; 7042761302586216665; 12712535106864217193; 5133213414186390497; 23429912578169237082; 42992543015999889089; 77275671729869474910; 71517121042049765601] 615;
SciE false 424 [43504; 56800655576408942149; 67724764999306454924; 76470350994884336375; 49714237134170611744; 58997600487415552896; 38741951655805607018; 67848377436380097549; 42261630630377462734; 26110358358653068958; 68062358117478392699; 30013153972033102594; 45467420984626448003; 11128793161214489058; 30627736858875071762; 15379878510707705081; 37900713384938297637; 65197515717362171557; 24280200021025330667; 49590719402339551248; 32315840339598097875; 97936180673796442896] 616;
SciE false 425 [804756; 4992095638836644879; 52285400945761710700; 49796271600478227895; 11631896910364932469; 57540741737734143334; 12375125886466444749; 32678621208545788168; 43309832505862529074; 4386944742356128565; 89236598937150605211; 99142158264364459050; 72442653569133452965; 95447685528050825011; 64444128152605780953; 67936081962819488798; 34917326631352386084; 63266856535603418091; 69701481863054476880; 31326486995599591940; 44120797035718939908; 2705404693999580724] 617;
SciE false 427 [23405457; 58752700108010876526; 35923569626872749523; 41048835247772970017; 46259578183789118589; 40709062229567458256; 43169990823416576049; 2427060772492481589; 36757279143074951032; 47372796955351099770; 17548667203375272223; 47076836953809195816; 61472489729029025673; 87290720733395113368; 77722430074788608038; 74374638760745333781; 90583801096804129056; 76263455940848297796; 62747611311627899112; 79807038458678571597; 85922102703776657276; 89665202502486278244] 619;
SciE false 428 [433763510; 90739549332951590062; 81831109765562067568; 40190392657764835467; 69592434686698601101; 14459796638703257092; 70192852805413719887; 13776831406179822785; 43999720659903170909; 64563216129953297015; 98526827124176209263; 37623304492443428340; 46590273762931148649; 46302499619394681276; 35385074254515934033; 17548177959704462310; 20439054298936099617; 835672690242351424; 69098724186363038488; 84976490628180055897; 81109602252508610426; 58213130065774010304] 620;
SciE false 429 [1263894709; 72645805832587332423; 39872759851128474264; 16637103379740380942; 98017221924612403827; 98289360396642745847; 31179504464495106647; 31061281714594005825; 84893073726047355753; 58131035588959387589; 47628028982264700067; 42149195505696574097; 19514445367567386389; 13698919603336121913; 97011224038584834092; 16230493080248024222; 91525259227422969065; 18226620805808081017; 88371010827906552091; 9580076768642866284; 39793546003939492952; 41920935134259025178] 622;
SciE false 429 [2346660594; 900961891268102239; 84706303831690785545; 5430024278507759880; 23495071655039431957; 19227499815384620871; 51743333677288224589; 41532657907432841269; 23038488770076154621; 18286999263047336856; 48030134741793292114; 86542077304118947321; 92053381057457514193; 59496522940925225705; 7433251716931203119; 47935642762001141098; 20575283757244298928; 1520989254211121207; 57824097848224038224; 67722814298454102407; 15802948186071582407; 80933033655837395749] 623;
SciE false 424 [68503; 9326717402676126233; 41734821103583931163; 30511781731003181928; 64710952533428313992; 28747667283333498036; 82492429929141975634; 78028423521468930995; 11576101204595951766; 68184410702128921598; 80734961439170838746; 74365424486396408754; 31606797682938922152; 34229122481442500817; 80773718008342891298; 779519692724949442; 91288200669050126324; 92333287882847674797; 99116929708786872535; 12333739240160860443; 35261436810193413520; 51802112114684276839] 624;
SciE false 426 [1274236; 70254689222306958579; 51623695522980608096; 55096448503183229713; 61496757823908686411; 55275540532399753849; 13323396630186767505; 95205252233243736032; 80919209899402151351; 95930229840599834703; 91306880363164793757; 61837192347976136588; 39580284985914199430; 20712206611956922397; 55785536255682293643; 29387729054019766619; 61632572379080183654; 31791225897165036638; 81571498485131585652; 75599973488164060577; 60708681000865036869; 24744046637275119705] 626;
SciE false 427 [37265682; 73734267055812670979; 3742680349658552837; 98409261665730969184; 2758178185002811804; 38731002133422932032; 75881881453234745320; 47462395679098461342; 97399055300197761074; 92319421958133349751; 19819022908936278228; 54790920599646362347; 94097939518773650874; 20642629904720444887; 40902596538532866116; 24058712842372496944; 60781163963268720758; 29308608269135090107; 19609761580058659107; 9554146647508081183; 82221624745216955161; 80348990388246600505] 627;
SciE false 428 [694459002; 88805626157292425836; 34914060024431412620; 27564434234860193920; 15733014030234094296; 25169590157865847777; 61251163451788290743; 86862467117836137881; 969395174172486817; 81975263126909913632; 62249797924812597902; 1269829646994440675; 71255317323238689462; 88152603516522706669; 3117259346850035595; 16312334440772807690; 89751946598700091603; 26218113954944968154; 56466674396714180752; 1985551049413014795; 86231145471445093739; 85505417314940239711] 628;
SciE false 429 [2034706277; 45890981247371835455; 44350347091356984953; 93145686948910917447; 90596528901153524519; 54712716484892088988; 63150727346617094497; 91446804078775989326; 37988419390797754690; 80640438914080896415; 42118650827920791278; 71584264740691384197; 57747497725041337731; 67087592797736290852; 53281771003894489946; 73605721193538333175; 58651552394472153402; 80250011494775919852; 90692982271202787247; 41656406953941232636; 69300711088845751834; 47054875198264387604] 630;
SciE false 429 [3798690745; 79766775080389569324; 82979908333639827032; 90777455264685260743; 26059586745380495800; 49677658163526187343; 54043864081281950368; 96137695134563674209; 12302591602723502893; 47404689304197227570; 44506394648724910524; 945968169059590496; 14766585758115631361; 96194741235379205479; 60051408627269694705; 54228469391027258069; 20943147894889501069; 84413083333548975805; 46872708950026568713; 54860964240289190933; 36684365728804662757; 714632712723111219] 631;
SciE false 425 [111501; 90400474825772355976; 58295830399020606362; 77547544383644800318; 27614524689783783213; 14367118256863372086; 47657700659858594616; 77848571284863516924; 21508561765382615716; 95705619096052491633; 12356508102065370059; 36207362817707789887; 85402724562875332265; 30769556400085315948; 73871879841051013418; 4908113593521405900; 65802214105071217074; 647357700629913720; 40793929975428461912; 74115842771101075979; 54849077678967668747; 20052898607160864888] 633;
SciE false 426 [2085481; 21944291959519133873; 55933155969675168265; 4106636822940312208; 14805006713123213892; 19447273034331775876; 85160370081380623790; 75255979594628875457; 14080854122789895203; 8851725174428004277; 93617434010662149975; 87768119336524813715; 18238506855581205481; 61771710912938223183; 80830068223336371062; 39334271429695673964; 67999597788194294336; 8734442782750118387; 71720233117213564586; 22373818669367918765; 82241839716785113759; 85359692333359284988] 634;
SciE false 427 [61326047; 20261154174795787120; 62706719461333499526; 51149411004640175051; 87988579381080767229; 1915041274854647562; 11735362922227039228; 16714206674934308318; 29708970960438644326; 38090502828870398217; 96079456135953532649; 14049549739284438319; 71498509581432745919; 23256020046923771806; 29533912578057379926; 99462476436773245361; 91217757789169390703; 56046735346452546224; 36661486485654052007; 63713524105591788751; 66992723432217810960; 29094233938475688642] 635;
SciE false 429 [1149100151; 91304869695042764331; 19168939291017714037; 62756889440112026689; 57558698930890854599; 15447441916808508145; 23363914840723708704; 66044756640510376884; 58550621657232256901; 77300571109830357142; 83206139874844636708; 60233754425172357065; 49417277425244220371; 36212713028960974278; 37367591058340455378; 73183557762316354538; 67778381295056179184; 12677973295315231632; 17848447584674087009; 27974086821723239968; 15253683948597681679; 33190475680966028420] 637;
SciE false 429 [3385197805; 58415710448727449058; 61410914265609173863; 43447487456137662863; 76969581835658351041; 85710278371976545428; 87792033306932565394; 82624208456373819169; 99935197016213166816; 22595756153645981631; 43585978704635002232; 55535145608500995248; 26717728895087574741; 63732306590192203707; 50271974308767371970; 10328699309883143977; 55220229962150366836; 53779791124180551585; 3714054008103670821; 56986530628666739092; 17998333458423165008; 6001713403858013060] 638;
SciE false 429 [6354523840; 7915929413586486751; 49004234279327958628; 8045598603819507593; 35299605087826425933; 32424353799951050043; 14202449069202109136; 77227504222022384171; 75784937764494380666; 80472158237361874999; 86129953507890840998; 57092661971203134572; 18277544161600538653; 63256303050154187759; 40642778552622718244; 38705074425609440598; 88814448561660670888; 22109192323093230925; 94701915143247701161; 31696700124129517023; 88352872235745179686; 70543330515742137167] 639;
SciE false 425 [187539; 95842936230358859500; 67784722164650314748; 23203426990805070026; 52265284114833695472; 64771888349421807500; 61675983678645204064; 12287337381148483109; 58201796409914698209; 44161891804890911987; 38238154663220236779; 12368356647066710955; 13675400162180787851; 64068670769785096648; 8539565067376705712; 40714372209941767526; 17635639200739903130; 32274419400428279602; 55781105758592048943; 36351497053796828137; 34570677107673596643; 34144652494922573733] 641;
SciE false 426 [3526760; 73124393340824540500; 14707697350025027017; 3858465307225119826; 71431091280823743666; 39299495516358972832; 77394382359233407170; 57090861264843222423; 21532560640459294381; 27007662047821735840; 62492302124196879416; 75420686427394017739; 68756144037009688298; 95276607248192835574; 20647056742096705608; 62563481316306213239; 53238292018951721672; 34296270601739316743; 16390059562904502474; 14453091668568891881; 94825535844090838574; 72612151548436236886] 642;
SciE false 428 [104272216; 88672544079525882376; 88305523545575000017; 1105406887618934746; 59497967847534682792; 13169922278524970342; 91846925326733459652; 31759583918556608927; 60198803912572204449; 54011843519347064984; 60413992750451649192; 76806295769091291056; 3522490172518045512; 22180948000513736335; 47998177461448376098; 37190948727622744554; 5415395611386140459; 44577186638123459022; 14294801777179212510; 11432361911036444364; 21296471866519733697; 84426787176950996061] 644;
SciE false 429 [1964405727; 30287090839269058581; 92187423963940048490; 49165176124391743479; 87117843418825222180; 89819002611947867855; 8670974093007794007; 99609724517674889730; 93636276735826970367; 43267760636706863228; 8212283177661835132; 9322340058467881005; 97172228614396382516; 69070237243409414833; 410605347865024004; 47859093182560774419; 53728654556108971495; 3022725168799425942; 29263176537807878098; 50372059392872778245; 17823465158597086122; 44968412478983945573] 645;
SciE false 429 [5818389702; 27927959637544236630; 7448213843085000949; 21681704329136558859; 99986605892435299800; 94881663141693345134; 85058433231727048599; 32184782655458778160; 19093258321529008284; 33860868379566226140; 91100795475202024956; 45791303915294040926; 76554951626506939581; 97696898428666487519; 78298302348819386289; 15254939001349146116; 22179075115346637637; 7407014407289013435; 57649939166600058064; 37925794635833595523; 8343130151801140339; 71014724473865580230] 646;
SciE false 424 [10981; 2801562304837791514; 3747294327699958424; 87106184833334535349; 84605247988744711232; 99199122088224600788; 58130993470745179913; 56850469818360053802; 63359593426786953272; 76435394866781959191; 36544497906662963129; 65838840111880926835; 45482338192757954475; 77826830102626190658; 62891649295283894565; 48418503532330890514; 72900521343178968649; 15065721897033693588; 79101741581156846346; 3857063579812006158; 83039054633170236557; 71142449373425757520] 648;
SciE false 425 [325829; 82332763965739702477; 25128417099975212760; 5315614175442431647; 29615999249929976376; 78885313373135934827; 32755163272260976714; 72156202347828705691; 57697069222466005624; 46392296208629255708; 66389101644546611313; 39756164313019256466; 29189887077291084388; 61659071026312005323; 30110784704931533885; 63219254276584075552; 18250842028206459411; 70767614792806808184; 75239228396593329603; 25160523844499606681; 34929267215288500863; 85902376824570536472] 649;
SciE false 426 [6160356; 71676453014001039375; 2232117839676676352; 66569691500674331263; 63544121685783001708; 50707491494001042394; 11487337088045931511; 93113568099990183277; 44731912427480786020; 80256520264679106356; 1463325637922315738; 35589302765199954690; 15591726137212460911; 60851687573292959490; 82215254654264851236; 62780481637629578762; 97192473523401412173; 51869984235902103311; 76077027028990800127; 63812668274535455103; 84909649208502708876; 10914098491849968863] 650;
SciE false 428 [183116360; 71013348745712792215; 22170410186069571149; 87375166598646585780; 44191578460646723755; 33546115702395372958; 8401759010668913673; 51785719479732598666; 25752903025895160948; 72470469249641708269; 10675124235195558129; 42964343916822134056; 4716537437589426402; 52397916787346991695; 22261004171522043725; 29220903440250460326; 56973219852030189379; 71399513557426199830; 84446358885451237027; 40214400608778954918; 30248174992137485488; 77135775408641497540] 652;
SciE false 429 [3468280831; 53843046882585168137; 56682343737968786550; 78736314879648501426; 75340509095829961889; 48317711122586867886; 67370780569859441217; 22938840294473185202; 84066696671682529711; 84420909014336878436; 23852334150263760694; 36777456807574490557; 78141815250615493235; 59500103763936193332; 87188370351111246221; 45411161985452843553; 19362593674995053691; 2801124812884164521; 31366217321820471860; 26532238563461223467; 4132504387025097249; 44637450911532470137] 653;
SciE false 429 [1032776274; 40515286925820148093; 85041113449432381285; 28795939616366743801; 69240502518047521980; 9200092561509903483; 59385920820172673118; 64071457865691856477; 69246373066048707750; 80733446567979234637; 76207700686502947849; 98318899690876836076; 10601271148004364910; 23524250680637033161; 5552063527384326610; 64805895403012596241; 85328959965450268101; 58693256463883767045; 96277464113944976834; 54809219433513305739; 22599706955655418156; 67045773304738046131] 655;
SciE false 424 [19595; 78669819213214886606; 19997725255242119523; 64401194860179070014; 3306115673876391439; 28467557995067842615; 80355970644910219705; 84287734604447663773; 49639604976836195006; 29287191978135931003; 36316474765687948990; 24792317792630962795; 87165146501256165977; 53678111175586266239; 49233072614292483778; 54115121573065217808; 56607554398654263722; 5335430826355192795; 52954542219127868285; 66601049907147883555; 91258878348649786691; 79945937201597650158] 656;
SciE false 425 [584551; 37131331652400014203; 82111933270212378727; 80747298501822863576; 99175790124425214897; 44073207252389814605; 37171412431184217732; 98515064445151981590; 76637393447155383568; 58695695130757476246; 80497333558588560668; 48309048497225036289; 21907600319469770470; 53919314725885240560; 76915742467956499528; 86162680136798105129; 47288896191340444851; 74549820383158558212; 14801493044688492856; 88835422018199368531; 4840191434136900966; 67667547907690481734] 657;
SciE false 427 [11110811; 5787493892840705715; 38710219722281769906; 15477485721532697956; 74567587087913946074; 41105383203466763160; 61835355664094573212; 91145520721825359572; 45656021866122568568; 5837851603072878906; 91441192145067077470; 57244188421755905259; 22638066212246109263; 35489036557412957792; 15152172303838302432; 83273931927978497456; 96483344036967530404; 25189278543394315065; 25225438245501317972; 62795297352849976202; 43784023684429054250; 29346393305867639844] 659;
SciE false 428 [332025178; 90596378563208067770; 39578097480631117394; 64465549035386511731; 31848790673522061746; 33581719357414695851; 13362260912635672335; 56556604846325543555; 30039477984257866957; 39154834270246508185; 22485461278302459698; 39539546423820612276; 43516981458829627266; 26170764302816638516; 88141721799291732393; 40402317701323713540; 60093036681372675791; 44297977634061064500; 7248049383063942712; 58519706337241325635; 49228734589759749072; 35167211568193624974] 660;
SciE false 429 [6322051491; 93084025026361552055; 26115021978327076602; 6689375552105137388; 28957053023035316339; 88963042772588238391; 84317372869812158146; 61801290718629596727; 78276441823741515225; 21737562148468098034; 30038330543167080755; 71943211979110092499; 81059674768036170848; 93261801167972983734; 21586040883994084281; 82867267019765053012; 99022757034524800019; 32699491191365272128; 53274361690249926425; 30524193771636459187; 13109476440131868416; 98097791038687071640] 661;
SciE false 429 [1892543519; 76399357810285986291; 25595155639597369149; 47453629501703116868; 51538106839075751954; 11415800337263766351; 46164887202023332312; 72372647624055598265; 21225024510269841657; 13182555340405096655; 78167129286324020280; 85375414615777489975; 68046794315328875417; 69173356526054839546; 22407814255962874642; 40293210897545167181; 42530309083824252011; 22498472514148067650; 41313881483464473461; 73562326122275556122; 30603787161630569712; 40453105938703662355] 663;
SciE false 424 [36098; 91401892509782900524; 46223554116775496247; 60739780196334402520; 33448713344772761531; 65630076978974231478; 84121742452199086627; 42301718885370003374; 99731563958482813564; 5193599121479867752; 83977585518867401484; 3111515795740400718; 62817391850742925486; 53554740524884669125; 73712237256293447606; 22124924172094682858; 45270417419942667136; 60811035714094702695; 70385392196605251327; 7988849293146436044; 18195851855110473152; 96866096138386830903] 664;
SciE false 426 [1082534; 89330500432667483584; 15859840429025849695; 15349943476074974182; 84879079797111951330; 11775329837792914874; 35303606315479557346; 8287797154440959802; 20770140714019874349; 42787940421654711715; 28710711597951777339; 60064834737160224724; 26608922766348368116; 73891967159932903368; 22044017269754410764; 29545447716633395835; 62777527336795947472; 15042069126278092694; 69603631540208541678; 82011277650541941618; 10195905366256452685; 87549539176596938494] 666;
SciE false 427 [20684677; 73284408105602000516; 86096508912359349879; 3894052499612644151; 66112746554792357639; 6034108952234637376; 1758425110076637513; 38884921317011933873; 46186148210652172201; 75932296607964222377; 19156502311021050349; 82898550959249611773; 94365530475696303784; 86866320758915409047; 37111947856145478364; 77581550610253277893; 39949181627148269276; 44723464176264644638; 30829728654809010416; 77610644972907853316; 26223112978301116651; 4273087295654107521] 667;
SciE false 428 [621375028; 75707248351135577307; 3548406260837725018; 10867555267035180955; 20591803542260063487; 59039326893133137878; 64270025085265916651; 57195566649110926467; 22060769847407876571; 60277802029804524574; 79948457224320192930; 77215139129968991728; 73521667883963299008; 13989149801486533358; 53265912839031778705; 59086989347569209650; 34300691320873849014; 34147678483625206755; 52484504079702923642; 74473371411074488790; 52449680231203841692; 53435487366642696053] 668;
SciE false 429 [1189368969; 63853466072115029719; 50549262460662618044; 73908018727727038720; 51482926900560564245; 96961264753491649121; 1109443829406657019; 85882975728186197724; 5703522112499901601; 16107054957942786688; 51498882883710395115; 16666680156852677001; 76018002352537467629; 94813443637636020223; 83937001728365005974; 60939160089563478870; 47077943561025483395; 71599190135217066702; 72709397651518098964; 62612085942201565685; 7828996252314207434; 95702519500111182492] 670;
SciE false 429 [3579120165; 64073750502540925288; 52438820062425296104; 30597118338122642301; 98608788403417965688; 52066522904446874180; 98195344491131679913; 5446463898878936451; 19070034321069369052; 43200139691674061550; 84503113612084311281; 24759201388621392357; 51484807011628602286; 88577502856562432145; 14811657952823045344; 20341058641998647585; 97571982008233370322; 60690628065681190911; 82310743499088840182; 20966619327789055433; 42110158131734128148; 99788407231861929270] 671;
SciE false 424 [68626; 58954814344992361037; 21481546692443980233; 6118144492680589850; 13417370564882162344; 55699244664976276468; 15428234014908956764; 11004585447699516343; 60867809093225891244; 32238699377071073298; 79192731485542390089; 79814511667445050399; 46300156238735741411; 88224800735697891598; 36691553164999726660; 84473496189537167812; 73082616397343471170; 39193281273270802024; 74874735332244492594; 31025892717358865030; 34002901733083758529; 76899702035375156415] 672;
SciE false 426 [2068731; 45574034627790468654; 81676709637996081821; 14828885134399434887; 25054795879697175584; 16796494450238770293; 27660756909115874110; 98974548056133552025; 26878822479837578095; 31230569680741787607; 57638842799667784731; 92056110818402623164; 78264358218452721332; 12181997796651093085; 77989561138296731720; 20894957131895075218; 30469396605600758888; 4646679183021963728; 34703375609742473349; 62531718705971462074; 4051739671400142326; 7012077699380016195] 674;
SciE false 427 [39734795; 34837505750577040547; 37815534925064554942; 42405661262061523227; 68657557066771997498; 49862661021264075061; 32947494632285966419; 71654974218019962949; 42461464977791030462; 66206939324151440000; 52591530129043861993; 12602255450684181289; 7790462227994277479; 82159625969079235454; 44409282534841736629; 10154293742020163571; 14834894061869807656; 92909857223794372329; 52471757369561212105; 63991883350782852566; 87680103455496188736; 24927478482215564418] 675;
SciE false 429 [1199864244; 32940084118471819793; 72491590037727456266; 753377951672234605; 31781610224361838817; 41966781138486770100; 43239007287206984374; 5237872557460174655; 89717038305795295281; 13730414830236812394; 30528823807315144513; 92544274673521435573; 93327766702578372630; 65558722057633989752; 33945460212104397721; 19075136499143626616; 72250031248440155066; 95073926152738962441; 27957853650634542782; 68396849463448002943; 50009009412082549120; 67005065640409393168] 677;
SciE false 429 [2308591609; 74059084108526055802; 67082579146250642154; 83768919325774499528; 59004065579453054662; 77020605335442761063; 24249438135814648985; 53154002066959847361; 57011115209658869880; 66623174733198664030; 55567900497448381800; 62191041684750932895; 42625855446467521577; 63474268803503579903; 20179315274304898150; 79964466411371503483; 71907344994635824867; 58062704702453032345; 38609103171506423337; 67928422680483734135; 54214010764328565576; 8286499816724292689] 678;
SciE false 429 [6983209901; 99711289569505991199; 47901054019573795468; 16384659678732405402; 94968971505785901917; 38246666225993001984; 51651022411544649056; 98484418284418216497; 32153162939728618536; 21911014311978248134; 85677754558574141071; 4607678599894755040; 29167602209006128710; 41551762375429820358; 61562578434447594737; 33017294425015906909; 32495181865921702489; 65330250208940761408; 24714708246693038995; 22069663877267377131; 17052434778320435882; 29969482027182668241] 679;
SciE false 425 [134590; 89084787644603527069; 5329570914364226412; 43762703727996692653; 32251679937023282113; 8683950301291056312; 96998703742243317994; 3585648878320503759; 10117953748016723112; 11404284131086945482; 11298139608599001240; 65897625737730220979; 38780335087372529056; 50797610549871244258; 70835666454080491975; 56219161928391782958; 65310082198213187268; 58977995055684153011; 78573600910714898824; 48058670227042272201; 70010210676827560355; 37308563102939315026] 681;
SciE false 426 [4078194; 58276631393108591498; 86049574215547431096; 55340768641252379724; 75532261879359378966; 71975136053075979913; 15895764197088342075; 4927914900278100238; 43443577447156801513; 22515196032358195296; 91075635808662207298; 38549090884302338536; 94353033879690059579; 16688266229227251015; 8943152545805717395; 32660082099944209289; 63504577186209698274; 25395752866122021404; 66241633389616068734; 77320888683704324148; 24460358621910539134; 55526302177503874678] 682;
SciE false 427 [78735671; 14600772093063335396; 17798984903072451276; 1181680878065202193; 67232763158620036155; 80110926255267943087; 44241689212341026510; 97604593817494699074; 19002942589783020586; 71506216685863107036; 9411671030415725785; 50111056572179272941; 86496026112929498057; 16602171674677891344; 38864875637087805703; 88209728109193030812; 6398085954714552125; 2127107575229511894; 65556532768215812321; 14322082819729237994; 55973245944122807893; 25509415219499290364] 683;
SciE false 429 [2389822025; 50105996361634618332; 25050490310794622580; 29690423773894518706; 61905461304596074497; 77429727102524229111; 14917819493768455978; 87758131562966739722; 57936384033885686749; 93904874961902443989; 70322583876053476853; 89767258201170382648; 90877853498374913391; 79324010327169094842; 40687391842150393661; 38808110567306643726; 13682231118883188712; 81911179547504543132; 17597166315016278577; 10040768650733950871; 33770152439575932849; 38413076017270561455] 685;
SciE false 429 [4621783896; 27065321862817787755; 64800413810352889901; 89364667542427368768; 56563197410996122345; 52511371184228259232; 86987156764418256194; 29389657086938835654; 95472730020263308440; 17414919460164383018; 72465089485403103608; 91519020786923321687; 47316732828961535955; 64547477303592221915; 61368199897054194817; 87911040009630908668; 15567645541744209738; 74861214665972348216; 28168473494268183251; 10706261518106270280; 65629536920008823334; 7402673384608344385] 686;
SciE false 424 [14052; 15350994623258606411; 55579363296883027472; 38077214579691790499; 76999492004112471024; 91804691286795362842; 46717355716778623358; 52115580017813590244; 42956876665938119247; 83808964160664775986; 37065945496793191194; 44390091831478222881; 84997558361778570444; 49074374425180723754; 27767335241864031844; 31472896191690135763; 6510968451518979033; 14963137637735739326; 71361719471337932295; 71803335039719666315; 63112346568496344706; 48515437868886981550] 688;
SciE false 425 [272223; 7149034147457719967; 69880766744373429785; 21522153578918248972; 2046851572327507671; 60615142919762751044; 46881603543533424235; 28984391050802420697; 42007683343798193508; 86712625738756203682; 15980288193770690242; 80256510470324349783; 64739216955563625834; 46778751846413181581; 87082964586973936492; 7477307960256567260; 52055436934322408733; 95361229325543825771; 30993899123088812395; 99349020598803416459; 31953065579724588519; 69437696017462353431] 689;
SciE false 426 [8290770; 57086827722577782817; 91824345160986208704; 65556602018156394864; 29700282426357904701; 64767859209264077055; 63239872899387781527; 48192210510018244213; 44557232903490356224; 47288854792217831958; 68907843107982804721; 90154180572151500291; 48559433449356562249; 53880910856627015023; 82727792699778788145; 69008753097180100208; 41471386396197629558; 28251206264086202761; 3414488089380054473; 63967673434603126222; 36284475412843376826; 24108342643319115031] 690;
SciE false 428 [160883835; 25079181147512500909; 99533145924697003062; 19592765140685142464; 9689279245557033919; 23549465579785867281; 7027694228253723056; 29775111024230632175; 26540856184732363740; 47161811604916376156; 44350322518477933496; 31597687961690722135; 60877220738102868170; 46242341230190314885; 66032070901596466816; 19089004511631250967; 64763228184543561766; 58486531396401030844; 17394381745488126032; 15271173892819127457; 84261757617231815139; 37678346320250878007] 692;
SciE false 429 [4908136177; 95402011766047428207; 60012335303835553156; 9508394748585759663; 82567196403879583375; 42572651884333616934; 38004756437566664269; 29788621930800574359; 77881878866290884887; 95002036992956519543; 93443119925820395365; 71274898713688172559; 47184602019084851726; 97499227123192894105; 74853278269042582248; 53181833530619323381; 51060746548996698503; 24714108339032034532; 21376948912992248394; 68862673285050723638; 80409444403279081134; 72138844844916098827] 693;
SciE false 429 [9540411430; 37195442047491303962; 72315553334532281588; 21850972842628948120; 94574259261532111410; 66483308881301929767; 46742267735445777238; 45664083736876487993; 23872771754629169809; 96695428171541106077; 9974125345741456331; 53742896128259822641; 60019189769500082508; 42170834950285672719; 65701804464670482200; 11977967539733182381; 50459431343433212758; 48251311806581129059; 51486837507445873706; 65580611844174258250; 6722226701846637765; 4325936790877065827] 694;
SciE false 424 [29154; 32889704687949890321; 72355314473271704783; 18574720479864806599; 41240312449146639044; 72525002881552192941; 68459021748253239145; 98575962944414268955; 41169708618360465767; 85623442312099738161; 72609097052132359373; 14847233372898359307; 74500326276535993364; 1925823145409111765; 79098814628472918112; 93855627900091171878; 78088617300834501040; 38910928801803533850; 28512134979076543173; 95546445044279313201; 29841449632099755477; 74194024504738378801] 696;
SciE false 425 [567654; 48010713128801825732; 58578202775423404670; 75449900132884136422; 41319627168426061160; 62893455756878437464; 82116431164930259023; 74568817012982344151; 3559770429919400435; 60369303377976206695; 81158743460458071616; 65172647702319631459; 44717521141791285254; 90925109164679541997; 52681959257365647893; 69090712689068614124; 35169952336164934276; 15912970953052491577; 17904113466831693029; 48554602046404728368; 36587899972488759874; 94702007393239057185] 697;
SciE false 427 [17375980; 2263994018134631747; 23767426069936050778; 70533405999424733249; 79226219691396870656; 24901717405106993244; 1576961958930531007; 51273914870904297425; 37146336542837597642; 31571618011443944388; 75021843070886186396; 48951090247422147416; 2194460815452044955; 47790594663830612411; 42893518569859195311; 37954228454338439753; 40815911297362620071; 90913565874906174769; 93232447529619731677; 45681246390470667973; 85503980731454264734; 19638604824073765769] 699;
SciE false 428 [338889724; 62395737894689962353; 71187056927772588440; 43590379331829444180; 67817419550358512895; 47393086856427166498; 23509405463364637176; 17583756750459458168; 25182946661882060055; 40474116651795397399; 51769845893468755141; 8070678284819981289; 96360121649397297180; 82290171313686572523; 51129676647291792533; 47155475373962632237; 96461544690465762867; 43658972337471575; 88755739698520738602; 87097421703622835914; 42976283575789645343; 37098413763717139693] 700;
SciE false 429 [1039083605; 35386842284450978484; 81292078982175836566; 57897678765599048337; 57727937545532865243; 69122700825398195992; 14302325144045754249; 26180109280076986037; 21350925261688339010; 47982757084347874447; 26306215638993946510; 7275196795844415478; 11228756764032288337; 57877560897070622203; 45032410477579879620; 49662861569438697253; 80791495582284680300; 16631239319389251241; 95300362271259954311; 91738534150145944836; 53138047740965031104; 94388568479611193029] 702;
SciE false 429 [2029949450; 49750469989192874498; 73410470997357804758; 21106372197658370642; 26226343106647492243; 88884590269998727324; 42821338725554176685; 29326702935252154427; 82845850504673539731; 87439958744254430423; 11101376901877843295; 7343362926071687926; 88197128679889810113; 12918126168982569415; 83266763117277837275; 49461297490036167105; 40804652695889919573; 33261517244301454739; 56646880794139224231; 19713556004700787127; 43427938618979975606; 79219498444665666766] 703;
SciE false 424 [62345; 1632123210537067058; 70908877524738930550; 19399473860725935942; 90025463676252731971; 91462147362049523891; 75952858139508642745; 25495570806556804619; 16223281055515701300; 34062878965425060872; 46683578372938339636; 79060436511807750664; 92868673725405841937; 30025472653653824237; 33220701944628654792; 77722979771694166321; 83522847489734937080; 81800997874359163355; 7451718021736275597; 25871504312049008756; 69019188282864457901; 86629663314108776671] 704;
SciE false 426 [1219999; 61974900032463504917; 57373919693069412040; 65968484929690792680; 75599962032207095142; 83857719638752269235; 12198135624574058060; 18786125348464086544; 81112490356153308797; 37885651415205296912; 68428971927518028583; 82033913361118569084; 44405606474336613775; 87799063793827558524; 21891543324633483980; 20257226239791511736; 43035023596270229841; 66357290171863825174; 29847944775357277673; 76294947847158825173; 6358800191110006965; 33968210918565244065] 706;
SciE false 427 [37531699; 82538172743314369342; 87144269892836191216; 78483264157013437625; 95329133104144647092; 60212711953813382839; 23620599984202932643; 48333625547196380735; 66415195420452182805; 5853137185886645225; 3514180508880461347; 94382780108265900287; 6941582694316846254; 75334537499602190873; 98862570666450185251; 89233822559888125744; 80754188820432122652; 44200720364216339754; 85934249085237909549; 74645595853503271527; 49551346284403656923; 51057315093483556292] 707;
SciE false 428 [735659770; 70864719575493465296; 96473574920855460517; 78996412603547986495; 86777105420878371131; 66204942167618348778; 55475781618157010293; 28033585123844186521; 10831684760445204819; 45047803368794038348; 62670072293371236043; 66449756754497157919; 76580704024978106854; 42835467678017790104; 600624753990840062; 15107422594281577067; 50119228550948594523; 13445973633886580101; 98310699540438437279; 5853551836771579357; 34356515239334200099; 82831183894842171632] 708;
SciE false 429 [2266914669; 45305633696187908309; 43513901527305949493; 80389155083611632607; 57879639490336684393; 16847802010328323489; 86684239045857131666; 39350983050661396434; 11477803395311841425; 53529486027553371592; 12256502736379865415; 80719918539260377338; 99271594736737513787; 10206064975972328788; 91299268253591189214; 29722882617242794986; 37553004754100208207; 49723509998666921193; 50428644748369736804; 68593989551597600260; 72901315577980878180; 3861831646406800049] 710;
SciE false 429 [4450741612; 78731553431735465046; 63665128271175536132; 62928296251465318300; 1487796314145346; 55539900114091010110; 25628478789849912274; 34603189999257328452; 70531692800693489157; 67539210381203932009; 19153937374895978064; 17021028364707805414; 58313259351117546469; 29154579452007630129; 23633779761644582376; 1399906695403541258; 38221332733238996864; 96348140485013809616; 99779732219652545538; 30413988612468055111; 92856917197971910603; 96128662563795138379] 711;
SciE false 425 [137375; 2896885521401988987; 24355176942432554740; 53932451582798066864; 93601927506153114403; 7422600976801825896; 40348593064886178942; 17898344669572870080; 62390735554885755897; 59038743886853269734; 31848262744065824619; 84419791627063479178; 86674295858641046293; 33549838487537543923; 12460812735656167626; 6638641206686604913; 37617435712088098472; 61737433244705919215; 42432635975871751206; 5036396795766826814; 57580017819724025641; 21771034026997772252] 713;
SciE false 426 [2701600; 15896190052933063427; 28330844732860603550; 43250597475824639448; 20810000903092362686; 22535912719369253243; 13692556486625438896; 75052804136329549198; 37079212737530020947; 91870896300701390786; 72957926439986561858; 68495131764217377637; 88665196148426128350; 70685996829727368631; 48844645704315318261; 50224049743364109949; 54383800348969076071; 9703283321274403382; 43751766297457329095; 14175061291087768109; 45294064148739168949; 73660450098176223648] 714;
SciE false 427 [83524017; 61306397012409304244; 7947580998993282247; 90930562341224653881; 9971923741093557069; 12941393895510145013; 31944583450796796844; 82193559100305009019; 33567217370539585734; 95556283206787998465; 63743748392021368865; 27233309254595340750; 97971882053756146347; 98301800422826705259; 76174143278949916648; 36293853665455787332; 71400912949563871351; 36359412781198882977; 99042673330024733278; 62129251826230703262; 8650834392207589860; 36788688414645529266] 715;
SciE false 429 [1645274496; 80779742236235627215; 53484442312107562213; 39613862777205423958; 73290549983248875911; 24370846095875225070; 38766900354892288121; 7157719024695461807; 81240557155782757282; 49375847127146989118; 31377201951816171939; 13535244408382981472; 97104454391512165580; 47772069303967496576; 46389233928028821254; 86446293708742959272; 19734412522167327298; 9299542656111659904; 44825675151513418941; 32612326272450778656; 84085066582153890389; 59214109789320202238] 717;
SciE false 429 [5094965074; 39690217756967558888; 84802440938590217122; 46764302814703886747; 8287348206706981216; 89425027626118845812; 48619590498604607534; 13807105118605550179; 47600259602914729832; 28933275614067906403; 88368651913303500781; 61231864530315785809; 76284805279124927226; 96409825792429020845; 46622740015944915550; 13925073592803027295; 55455689923396152433; 17924179653131861657; 41603073131508729995; 89884361400072898987; 27700897924662981482; 44109993293377285253] 718;
SciE false 424 [10052; 62717549564225063399; 68228691789942526977; 20512385040701568725; 14038785805260397650; 63181769905869645797; 62518006865761168391; 88041974733663240889; 27164573379804221832; 64699603686425946868; 10351289714703925596; 81054811700343335220; 1679985308216332139; 33169671887343447241; 40408219438219300256; 9786722186854560419; 48115312577260510442; 36979134820205628842; 24201617884875175746; 98973150261313524674; 25759329759756816960; 27028040798210812746] 720;
SciE false 425 [311811; 86255309041326726414; 60399749909385441721; 28789501975332259877; 86892147185710250467; 25047392811690718473; 36372415518938514601; 98108924994833258659; 67098393135887698381; 46573610716467580955; 87191768161497094174; 24783467390109255326; 9155748630083082445; 54629020281338496656; 7574253311688975828; 83166852214503879545; 27048793888223311844; 52891056959794771669; 93343386108075648334; 27574900922917684461; 41802135294952989374; 46672539531589554689] 721;
SciE false 426 [6162260; 45857882869963864005; 24188067234769037026; 74092029950061628511; 5775698624623759837; 30424952298092873944; 23538208711596224222; 69730511735566665123; 51883481819987983412; 60857059779105430147; 45340595113506390844; 86599572310464489870; 29830993936611601410; 33008866941533158980; 70238515628431056987; 99260700541845537141; 94686609860692901172; 68209644786050480294; 35591763428482732904; 70541110185190625319; 90469142730928796645; 68189009303228213565] 722;
SciE false 428 [191452483; 60759751374610018566; 85446444362661216870; 76754212854007565011; 51778372026093786891; 79099186378101142645; 32663128628247965616; 38879946827620817037; 98413385435046806219; 96196979911094706905; 35745651159215822988; 17048977527082770220; 21629658871012621565; 42218452741836946830; 50591533377031158902; 64447259705382040796; 7959447369113472540; 75108973313989805339; 12839070358448077245; 30989166671458259310; 66511071101135475922; 56939272395986579572] 724;
SciE false 429 [3789790182; 2597965027776363223; 75661349382957771445; 66598419287901534300; 52054654143612299942; 11345663327117475704; 75998357631677896958; 84264717373499050964; 8341319292609798754; 27091764149839540683; 84465994806430369592; 58736970935661270233; 46061271016134867353; 453169042892773131; 96687111485100047615; 45330833235005342297; 32265064326134221199; 48931543421045381028; 88934508516880736393; 82782763892234571741; 38522779521209937094; 36240721485351342518] 725;
SciE false 429 [1179347299; 2280068467597714371; 82350097273993095923; 92805951180686600470; 94954771680737727253; 43250988089103038695; 21204872350007468196; 95500472458144232953; 98226454279888326314; 96573396252343394537; 193211140769469607; 13021701566829864556; 53238698645437748843; 65668889715592475; 91643845602511938840; 28995119785153371303; 85030195793738990851; 2671275614177200889; 3088673408040155831; 10893266696182877353; 69708197982994531683; 2745917959277330167] 727;
SciE false 424 [23383; 542310029444221380; 16109057830525692849; 44981975912247006352; 46663421177216066087; 89064284002742728314; 82509836909866587452; 62423605913306194489; 14444839465940035402; 45831385156184804509; 96601932155187955675; 38038626407110673030; 3734045198042169552; 13156803796052994648; 41022423559477863067; 29378734691241059982; 96197448075446892248; 14480084907622907850; 94824725917549154; 14354991769653215087; 30764434685549645865; 31187221605251564617] 728;
SciE false 425 [728836; 63079609082312975387; 48178692360115327733; 28098754077829664319; 9104682048898695915; 44262129110639065677; 91364104611112304615; 34571819291979133135; 96556103948744970985; 66264882358883948217; 82386719404484995532; 21720647411568300856; 29593701515762880528; 78497440583373844236; 15011635896582352378; 20329918984027224783; 46577948661000530696; 34593450848329561510; 14942108800166168816; 30362532038818241018; 20458479666353490620; 58011096977298833390] 729;
SciE false 427 [14474080; 35689908225973034319; 71506797095403873809; 43843089680896932176; 84657708696744908404; 30791797697748826876; 73589047207417633174; 40212060336534388780; 41355629416881914121; 69627411678393991668; 96596004061344563060; 45909746001506605593; 11373977588102952769; 44061549756803687365; 92880183316797238654; 85436773878216129453; 46220358701626301601; 63172557818579959150; 58696505342962926414; 85739905415340139043; 43185070355230790628; 4890173650718498407] 731;
SciE false 428 [451878711; 9357631034044740238; 70789263271503194634; 21227528254391877836; 44902870317191467574; 42520048596220720306; 45744858889628861514; 34527961027062544298; 64784448221882011110; 84227062508047895050; 79766030780697229974; 66801395172346530903; 48094939772985927846; 68413161691783426413; 7214255881058474486; 4549770096879365748; 78328169820329031734; 47939525964328136292; 64107456103024666108; 24769864067309431286; 84257393139164184759; 66880125925276701826] 732;
SciE false 429 [8988403901; 63433008329254312543; 5720996245805635661; 26558691836994881821; 72437100678588119075; 21706370302021490452; 98798315806350201303; 71689468987855432636; 81845867883668669573; 38622652282668826427; 86118522094973660545; 9952266935602073323; 63240082211933669822; 62222398975089854241; 78593839731085204664; 56236578372216390600; 2842753709933294613; 30158405338154632514; 50529817979977303626; 44481262926226345971; 17928690598320980018; 36797837096187511297] 733;
SciE false 429 [2810685583; 204465031758284284; 76309217548749870624; 80035225742317480142; 71295853372930928312; 92474702268492880306; 16533022293491518619; 22763917588329025537; 58959267940106109109; 43892328800057907215; 96144711455936770442; 43504677971995422219; 65150525387972471206; 37529865722892912289; 30872671580183711303; 20299570002589654957; 43201216282446577388; 46183851498121007740; 22748376960813423193; 30068554498664662604; 16080985325601229205; 13994383255221085362] 735;
SciE false 424 [55997; 75630718187641891254; 36714324641806611369; 11016968460650144478; 11374934283137227603; 98183860230686981593; 88552211513507473561; 75412215625391794339; 34532737899756915255; 81144219619123721026; 78864557518392651685; 90519597002623008800; 91680622985712180346; 76299493645545614809; 79192632639621524660; 82506022353883258908; 11343817710355612884; 42544086886865256703; 36056536800766015258; 60159275118268030390; 13540044695742427539; 70551443250525109248] 736;
SciE false 426 [1753867; 80379327586179817169; 39369216951750419919; 26987541980863206107; 60905288612504708899; 26726504214215539557; 31104716605911138707; 61839804684575117311; 93545590583194626212; 8428988813171236134; 10275994299948504544; 75607946919054525143; 46506253927842094822; 3277818636211085177; 26852864547066034635; 85319866931681615944; 69343757558960246664; 29040018723334827508; 82990194987223547576; 7261962778007166749; 46499634534843175167; 2400732495151257957] 738;
SciE false 427 [34998597; 69198867276182033979; 46452901129132105693; 85605287906340298821; 9333926960767252488; 64912644179363496178; 45132195942170976096; 32634765869871462090; 82961187348072034882; 15137261952325641742; 90348448995407303690; 74748126639380500573; 389366070112716726; 87183528466009256119; 95395399763452913015; 66263971177036817570; 89886068972258052765; 90054304290785439600; 35335500478759536625; 99546948917518993834; 62527934839017212315; 94652031578193280122] 739;
SciE false 429 [1097921245; 17459068948565548040; 45129811795762869462; 94201280020367023363; 26710671427947770941; 30791638098927762876; 71552595300372830969; 11717732544023437271; 59539705079836008764; 76546997045193819948; 32772431767763845017; 30574771328132739809; 12914958829151358592; 51914466268139320970; 9893206463337682044; 10236699232691581378; 9192231909114411845; 79051720807602020527; 51862062001940782621; 45988699032486385165; 8771218811827654557; 2858541964687481248] 741;
SciE false 429 [2194412075; 28768978216613530512; 42596900796583027004; 77451551727536736082; 55237220440106731038; 30022790046091210388; 89788685574120201239; 66199820040940673095; 1666446724116587110; 89106324410817737280; 4847752012037941409; 86707540289157385927; 34413252596067338774; 86407234818780358721; 11291565168497646082; 4750992800208461695; 35856524560579908421; 96404879032247062942; 15535880018222946449; 91593697128440913431; 501514406379212209; 84682379952718663657] 742;
SciE false 429 [6894945419; 69642952996991641694; 3415218077390820227; 27584038527904906721; 31743016567512001511; 41371487261266350865; 77350298486341378486; 5587360376467186065; 61909347901370135042; 72715141443817189275; 49810871501556946708; 68009563940673606001; 33105941447070531961; 2022848163914935692; 22129336589760643236; 96286471181303131054; 41727216389238506391; 56444806671740688912; 81693749372188114862; 76809029924014498836; 75083254138277670618; 13951643538237382239] 743;
SciE false 425 [138028; 51953559568729824991; 6923159345060105072; 39860031702603662060; 69959254421165682713; 38230908433493899137; 13346167708322612160; 65797473968680575168; 33767654819498946933; 32927504787805440435; 67491504923601557186; 51468063904284187999; 57482994593588292635; 60893895015070101284; 56355800239449098501; 93856078837447133112; 24063805375394860476; 23974153866891128340; 25906157206853146223; 33169971243549378933; 45481021545256161252; 44799936521699026003] 745;
SciE false 426 [4343815; 61440875060388104734; 26724151587388756216; 74318377944272580091; 23442998100437532560; 95219064036974597801; 4543730688046395068; 44621520037037174327; 22134002889177863185; 7691810539109604829; 24356380849045980876; 42646846025282624371; 78083856743111654435; 13544274394343266409; 48609941482051549205; 23928660476844220972; 56428288146325220259; 2668560228203196634; 1507467062104478512; 36354389688852129134; 26715302450107114932; 48942789535429089550] 746;
SciE false 427 [87095995; 82696087868519569364; 68513546732926300683; 51680004342910760301; 44289539755545792144; 23703221534650355531; 21431823951568273375; 18206074237442931221; 7390191103835514930; 77255521105232914910; 87139606792582584690; 76348323603322627731; 71769588554212653069; 24047754509233910559; 60509951092381154723; 23185746429140993823; 84261191874156960507; 27691090008301982703; 46785197524335266922; 30251854679658107009; 98524595056637750294; 68759945192085408488] 747;
SciE false 429 [2745291468; 30633038165282192056; 89663803229693928981; 69214860780270617660; 15974799476520578521; 78448471367945810260; 71637794845321683258; 800663407494174803; 88689825960409532968; 61224260717270252081; 93232696597059913901; 52806687978618602965; 48997461646565603005; 59981417224944370795; 21483016656579097711; 22913421365547654660; 62678108477539203704; 86530064224420272697; 52719183250030419813; 75974283354545612856; 84071148467696637333; 31842986391184596112] 749;
SciE false 429 [5513176535; 84662362077288740784; 56907508194234833266; 61344274906251127081; 33527866526048642730; 20413923143367505125; 86634456134271704649; 2444499230137546293; 97799096872788095117; 90274485961243513858; 15937109970477610925; 32848884090322335417; 73014955481660939282; 92222860434506538423; 279904147727093980; 57657748964624909049; 23733445634135600110; 62845997525515505129; 51503003290422396181; 74942401222358173732; 6606867085169593653; 72504530659006357332] 750;
SciE false 424 [17405; 14790906213461967889; 9764072468512476259; 50974392822217346915; 71596541280228681140; 46782811363308472776; 43705294183619319339; 47185577076206003513; 6825664293496588996; 43902100161812947493; 39819945095296425359; 85413568794401784441; 94280120643906839225; 92305550282185206147; 31084166202325602711; 47948919271091457572; 13054837379207747598; 55148884600607182824; 52890232239621805192; 86161923676956467819; 18551237011081285196; 68069323884533720110] 752;
SciE false 425 [350086; 71002626059991907835; 3982013626770333911; 91242995361456546946; 56966479019524404088; 81336796284119603836; 57549251287964526253; 24521305225701113734; 18966760242651422044; 3998682429858538963; 12999312006483125328; 29375835904139735468; 29902586449673085469; 64446556151637591165; 18986067773913380670; 46776661267059253681; 72462657073797767610; 60702490720842870234; 57572420440708941822; 15754108842477619744; 3198619536059908269; 19701154037696846903] 753;
SciE false 427 [11069674; 7016351761811577466; 9950089973934901048; 19713834930232638395; 35400254225441205337; 53868027064188685813; 96567100781887099904; 10027020467018234311; 41122490663830601735; 21735702913034605801; 25485080608526528867; 23029753239534905075; 62156729524749747687; 6329979469791109689; 69529704679083324500; 95512656414167015875; 2876573176127472678; 74690605986168276400; 38187704399468102659; 98983458544313533001; 98586739047697385088; 92089990563445990175] 755;
SciE false 428 [223005234; 28672800214845290920; 36542680252702701888; 21788045247820404964; 87647135437045404574; 11539232984187643898; 58873070433403223317; 20071428771609448678; 81826274568955842053; 47160707819889319513; 80561748129750834123; 12407470937011493306; 47947568441755444163; 52456268593145572225; 94125171982823487087; 96733227116744595258; 58712556009177967956; 67486589176908339424; 73631820731595940714; 35367332658243776948; 37520644470161567478; 49635122012891477650] 756;
SciE false 429 [7062452056; 76432424035786423371; 48157403370466868749; 77426685488423296235; 85362195831489005349; 67801266952381549310; 9810298843969738815; 97239057957633490680; 36149043523923907068; 67378458516078501200; 59481428239925417292; 92982566823269438246; 55993436790339024346; 38526901726727982025; 59951585255161031609; 37074792238556128268; 35253686369327569040; 52606619175360343443; 63755406860649497073; 51446551272034055266; 98339512430931686731; 53413979478541732178] 757;
SciE false 429 [1425003447; 9219193372861408981; 13507726814770265065; 71225609133572387725; 56065195442720135228; 59735698768959044511; 98198920069446596996; 91256429850584377057; 64869894495627830721; 68356922969092751693; 21789570549107830046; 76283739287503442228; 40384962342817288204; 92195556310200206523; 76459848970242082492; 11125321275997963702; 37173232898647215243; 15239304840444288924; 6507334474898061164; 71997255686177734700; 11756918164332416187; 59168429662376542189] 759;
SciE false 424 [45199; 69316329167513829033; 10957748207381570987; 95999855530787125909; 9590946318053321529; 63423793928108495241; 91558462785912601406; 32842222329970928854; 34035431353878553113; 523951222134502902; 40768380681140735522; 67067475088427668924; 40477798357995458169; 75581686572171051059; 8496383690145633030; 60229997278670326759; 22091745623592763696; 44185936682362722306; 19803928034603908156; 78127049257928141017; 95370869372879557962; 79508181849468662667] 760;
SciE false 425 [913427; 20958609502952004163; 15690758452888267739; 90712155615454619900; 53208437790278783606; 68153090582910902747; 53218045507764515268; 67502095371534224585; 69395281602371697439; 49259916787623188453; 83535267114721978119; 5997497876883289706; 46840686760861745881; 73935497351594838332; 38173310763189925174; 87744331330937914694; 73322028042288032864; 97086068394402724789; 20032571201398409657; 20658550240894839927; 94277536184543337078; 77624626963413583363] 761;
SciE false 427 [29018203; 1083325543878239256; 34874349138968574270; 31907250765334833639; 57387536190232422025; 18075701845653945309; 80533108555890102862; 84706735841336324486; 50746929190031098549; 36376684610350863345; 73300397292352205554; 57319006770563449467; 86746545833084144983; 23442779333814779932; 54678329073496405646; 67658252906349779419; 82900690346554293115; 67371350076867720579; 14121798215709036653; 57565623589866533526; 28098137388676212114; 44252747358881432269] 763;
SciE false 428 [587333695; 76385910398138676909; 89157685207156156760; 27916060737320596042; 13025499149257859096; 22437244811710466663; 19203261492583317758; 3847323896506408601; 21166070325001453593; 74126494441710175816; 13176754766231930555; 56391134835955281259; 18561587234102601958; 40524797075481047721; 45438820731121887446; 19605045793079148713; 46064031191205132176; 26341977600952039455; 80943282499177409583; 83447804895382073667; 20455766661365741653; 12635137474934102758] 764;
SciE false 429 [1868772273; 89766165025758608108; 85908084549576183008; 54826949287563286388; 55757330650967978421; 64075198860114077951; 46332190999322624367; 35113788182059296931; 8102239838002746579; 2658488906595599465; 20545585627482037714; 51344036024286145730; 66477551650618936920; 29714989097671827656; 1284392333168523645; 97191487168925794636; 98804458318096476649; 38714944950281205296; 69443805091661960490; 27226159187404759092; 49520047830748060170; 9876929911964238135] 766;
SciE false 429 [3788302337; 67689122067994466068; 80067069586157211103; 80058591755717844471; 74014469512713191170; 64720229035532509977; 58861036627162399539; 34815239132466335477; 81521153596259375679; 63115889149030634014; 4990068242195952083; 38722819691911564121; 74722237659961782631; 71384941136852757803; 38080393715736174027; 96452545365360509201; 82113001183273102536; 89905755526140654489; 97084172119694291815; 73238341575214375153; 46939694965809033662; 66496636713324962792] 767;
SciE false 425 [120722; 68889378894260664006; 8383229662261902621; 42235221820923976588; 30070081923560052531; 40603799257846363369; 43566453059538556241; 53413088350716561030; 58174783404693534977; 42900511738383366075; 72545227244831535339; 63635756824727168885; 1420094449836629983; 32505119588295709600; 6657842971744722686; 62752978570071112606; 33354942768007349032; 39155040985443788165; 86216646069808921362; 64767158809883506347; 43737518995089866324; 68698838049672312889] 769;
SciE false 426 [2451031; 61247694861977992419; 54651403394022243715; 58415897908865949445; 37321587361774725434; 68740873988185989533; 95549983090697774072; 50195825459718705719; 5414644186376779816; 6472135980279422820; 20709028574152700780; 99795153664340666781; 98677045287765995273; 36271886056915543734; 29878738014734081304; 59609304796851388249; 45357827111765577697; 34137369023825413003; 45501113459361442206; 80477885206999163700; 72429469982642878444; 77974423323953521250] 770;
SciE false 427 [78228302; 40317523480910275942; 32332821145712898681; 68423739958736829218; 85413086466914040351; 11261919084443463394; 31061582580984444514; 11681251264331547816; 97259646241410665373; 99531606472421217070; 9307254650834900084; 35970422423205437489; 20221203494136229194; 63317493215619820843; 14282245690580300934; 63930113406080968904; 14002913668762172989; 72466558567574731478; 68386653236181042995; 69118908804512113139; 41912308818233378397; 16847056187658752579] 771;
SciE false 429 [1590719516; 49753965423717080285; 68760802720436171414; 11917742854001190047; 21710197791796807112; 12827218332707207537; 11939025862855373053; 77090723357440011666; 14104076958530100626; 416251201345410314; 40159544625102806867; 67054728157092741509; 41402391760130932412; 40454050938187883559; 91300971562418766682; 86438813156550973895; 37229795535859925574; 55152496462693039242; 30222635125575992216; 30147499342457241770; 6726018735228110662; 5400737245835291851] 773;
SciE false 429 [5084839656; 20639026259167936251; 1633374471338414309; 47543097317893899225; 51850620349412622822; 32024740488825120630; 19002867763988893417; 59281332181550608103; 21877005691693249309; 69554420707379109556; 4971552304268505483; 38077457508353436798; 14378227118854897651; 15637059015288354804; 28345969887719560751; 55457371395262978769; 10189388469541244332; 10326306892357546114; 45132460351767794719; 92729072293287354062; 24300073185169595815; 95058652197818917681] 774;
SciE false 424 [10355; 58405239898314908398; 19265982632825710039; 47590591584505979547; 74720738333387624597; 21429995505191345923; 92106664723058367188; 47858004860609056934; 47594657817541000030; 95507528709795320758; 62114675438635509419; 27270853526280302673; 74722628529570358452; 37000475355871607603; 12197503369324871346; 17110544716673649146; 84005887365968938448; 11549033042751972131; 68546738749354667499; 70932812260220719396; 64392313786381966335; 40997158799470387] 776;
SciE false 425 [331531; 54558465664512097749; 44356626496015531264; 61297779809945126682; 22950380660446781703; 801528013079871397; 86508838986978212075; 85082705142858237099; 64832986380771098399; 85499214948230121117; 94305444145210238306; 55751642650229544644; 7923897460408149339; 32685539536247796800; 73323928157236679315; 36100135820614971146; 21574544348128214089; 13045313275209381712; 666222636414935260; 21573925935513522335; 48485824364771673057; 64719997824123297793] 777;
SciE false 426 [6762196; 38621653599635184019; 80686659235188655777; 76656304682404644678; 92642131702118861980; 93787064889948888320; 45652064157113774076; 51277173977714178212; 79311554854273020213; 66416247496344455379; 60883061428987650785; 7867352661037645956; 93876429809444069397; 61310407384159764838; 64969700169140989049; 73185699987892892886; 55844449977716806619; 41518576917037801990; 61020403328597877310; 19126405924129766008; 48180902507424016755; 26771144696054163200] 778;
SciE false 428 [216821630; 81236544590911928136; 9233728394157447056; 88747995704112850178; 9548951932195233767; 24199320554235894203; 76780697483750697606; 44089163429287063170; 773093024298353505; 16486576142499211134; 75760470967495852488; 61574293250122197227; 82228939106929667919; 76342856706059107679; 53849014832788272246; 9488826682191129625; 9752003675852014291; 31634881986935639652; 35709604215367660181; 9347561825843607407; 9729134560674179701; 26878576976636756905] 780;
SciE false 429 [4429238632; 97183107761045532973; 49761799048569534437; 9879566975042264696; 80596264887854597514; 30527502916521849899; 2102022909522020115; 86548955402786729379; 49068429548828239950; 2642110105618273643; 78405235986911264226; 53115992979658101794; 89061525185865455436; 58316836624645969315; 55153610787347827574; 36633492069844840695; 78114735404508335716; 94667880659760303849; 68364180231609638175; 27795880304996735555; 58491142362730974700; 35099775915476896470] 781;
SciE false 429 [1422349898; 12911732516382248572; 76573258265672852693; 18186851818980297168; 30641124675200733513; 10747542835787465976; 71681375493404576298; 25224912096123134395; 25071490239397198993; 88151939494794825044; 988689546772792325; 31927363720801613814; 51421840541458621553; 64809139991747746377; 77249537303091065934; 38246703035173810340; 63973144113589213751; 3524825834297796119; 46255003652811850787; 97320005577534064590; 55823122718022618840; 32323464966737125297] 783;
SciE false 424 [29100; 9781862493017990069; 15163587935019749101; 84125173908755026027; 67905801517460313204; 70566898565694161548; 55383656810290515559; 67216123626636996308; 81202325379582135801; 53647167358663393912; 5783966122400434007; 596830972073876353; 72879243134220471136; 4221835141616623924; 1840317359222872875; 22716358682042898880; 60337128213811607619; 76566033967975934625; 19629242152664121675; 32281157618933603828; 55260019286805323142; 50378130605527764683] 784;
SciE false 425 [935906; 23296895919995779519; 56087985203938812737; 7211366948496889035; 53674561860036282082; 65162471883185948152; 61267966345074660211; 20424997992159249022; 43207497040577523356; 93797403976187574994; 87895850557721776497; 35006008205328287461; 88995035571076279772; 98230044414114570017; 11657430195545433921; 38482366330597144367; 20414094328826741702; 64818119335398967949; 84660635792403550197; 81848636563670017414; 50058731614748458883; 19693268839948113028] 785;
SciE false 427 [19176964; 46247382898855455570; 92804449178014658113; 38489605869562152240; 49923200006346401901; 3586154792452460496; 97829837981449753823; 95425469953780567507; 12332425144627493212; 53483289359176588046; 11633674661886010616; 93311610596684517107; 27421225451290478651; 82189358325355165928; 12769139727873224774; 70080371466270362317; 62167492901849421425; 57016384896140918004; 35670578605656184037; 73282870877244923016; 16352710004707950909; 99188069042796926235] 787;
SciE false 428 [617698113; 75951307197214482910; 18070234599616406467; 59502186007946763454; 25210827623946174550; 7231442902725780724; 36857787749275739394; 80498674825104354805; 16948046781165415579; 6286624283799496620; 11261368096372488251; 3965415516669724847; 36723476910344650168; 31829313315616211296; 93903929059986388113; 98361778194115282354; 73302257025649523747; 79958761363318846898; 76019622986343130560; 20100132022211493570; 38762865733982862909; 97557434365754598774] 788;
SciE false 429 [1267597350; 96952009614345613238; 34374090666768901294; 74162947978058263096; 99923520419497165658; 47044831781107638850; 26552290573828727763; 37623563944895512220; 85173302059877301348; 55245426641572469848; 28985895150665301779; 27897460440846580790; 82543002330300638885; 42716585305976467849; 24040136012420157607; 72312553920470949194; 79271280812246756230; 18783041634914680087; 97825245833873764894; 13997764985889411368; 40914131311195555150; 46331363728876824151] 790;
SciE false 429 [4089161513; 8797653645559876865; 39624953049460610815; 47904471372607574067; 14895678870523675521; 47872152016044668395; 31998554900205394793; 60901227342190828810; 22196069691315051133; 39617452758752667625; 14550256797985872221; 88251050720353578489; 57109417146481584114; 26710054149379318785; 73644010377109889314; 57154971645043169188; 33260941509799847210; 43327000225170766469; 79249904169591524308; 53062873987040087435; 96610171158966552464; 3830215501295443885] 791;
SciE false 424 [84041; 70436927918237431114; 15770219002211206778; 15584137003450945262; 84333104929403812662; 8315659072347087436; 45577260416865044844; 65071184442289546572; 46024246989926569865; 7940902771786336254; 75094161764848489109; 50796619601627228128; 30643172601054498932; 35810382109605786239; 81840463861017623456; 44939204322324927223; 93161475685917851959; 93806145315660394843; 28983295813798785830; 61248148051818564467; 97372552606905932265; 30647571769415224533] 792;
SciE false 426 [2715203; 24469041642020651758; 23862310968824841845; 58147808568991411429; 18058690730770027720; 54626187108938653659; 81449247040453736382; 14295638414955214710; 32998738190275033193; 95257505988631811771; 30309661370513862619; 15532998697678314776; 11707520652985263771; 85187335475955187867; 67372899622890400966; 50487550901172308664; 34105285265162507098; 54772769128149513388; 93594221936368608772; 14086433748327394618; 5748149153649553790; 83612143263092860174] 794;
SciE false 427 [55887733; 40557065627891690914; 87195636470452507473; 63451107294878599790; 81514778053535420285; 29913283110813145243; 8878177215254821692; 72337654122548470686; 6124248301168960277; 80700343237913609409; 37617573624245257822; 79752035082106705323; 77709779701241790018; 13904102887847849479; 23908467576719598538; 84570874346076603914; 52381331135371553358; 81086634914162570787; 73891716176192577357; 30018454459345371202; 52747483592444956428; 80635226661124314738] 795;
SciE false 429 [1808325360; 96381733585754070986; 92299105237344669157; 26440506948280011834; 27088026692838461883; 81040614553143337436; 45198528942188430507; 20895184360172997079; 77159634723172107172; 41498988428786639687; 86234472762232504357; 44977132653757640893; 97208754888185672053; 34765426986155119870; 70351148845007043692; 24708900180757570451; 14119986598229727632; 78664239347575917031; 33751809621493442245; 81564876386044815626; 28267336330602824696; 85687413219844876376] 797;
SciE false 429 [3727711818; 15156277380375784021; 95948952579182248491; 42188856568402606047; 37035696170812533029; 45215983491236787714; 2174420257496606904; 64921529973982994760; 28487361687969650529; 72712893968837747605; 39092160737158696780; 59460739976517245095; 93242306072827394209; 87403662619451560265; 24694787367197222541; 877318883309481098; 73834786729282609032; 68478548774643471542; 18577468952044909731; 92230912438336259208; 58257155616078593801; 38369618296991793052] 798;
SciE false 424 [12079; 61341123829980352837; 19419264558022985462; 38997052622586414510; 47905292948018308160; 92538385351305214997; 49407549926173333818; 71578815579831525955; 62049287426359950789; 67591173213242704294; 75311492046278051713; 12910776447246127101; 4117173354482653080; 28931636233052267516; 20073629945674284647; 5186421055453207460; 57061362321510476174; 58058701477118841807; 12576933462088271576; 19420204853374258779; 36838356825806688426; 86897500391920308563] 800;
SciE false 425 [249383; 92063433954956747139; 95106908984927547292; 42407612434504426134; 34456907688073827358; 45967034949295563741; 9806805468715226523; 192103250355259462; 34946305804496925169; 62043874492606515245; 31480065265553315916; 81462177923504429003; 69691787910276272152; 67264057305029241309; 38174502081274865494; 18799348692633293404; 28550559547232189006; 54428661214913023648; 24617222832672891804; 46106560248042124695; 74105417403710715657; 92531256927464068750] 801;
SciE false 426 [8093340; 98552966086836400920; 10907253875400259801; 28025257132897722020; 96546275172266467820; 718185374494048321; 3058450536133658539; 57806438487122390265; 73022575661167029082; 86086052872611877484; 58699671006294647796; 50220219654905157697; 58506147503377563793; 84196276145019235854; 49332063601770713524; 74902107153648998582; 31112755412019036968; 99329989669624010774; 26545419599141956050; 11537251760753382176; 81699073290481246002; 21325262586606737728] 802;
SciE false 428 [167336610; 74564183775977330907; 16735928886384233216; 55507943552469936145; 20585058697538157526; 43880450977323270276; 80366469507916996934; 28901280988379099236; 48971194817436788815; 31439784538971729606; 23123793186274980182; 61121386671471861480; 63189687795378614443; 34182451674620918595; 15090896535434746600; 14362972756939874275; 57425456192798823391; 21631675206638867973; 18156520723510400793; 37501926436265670842; 24735077889890206467; 88473398328390131890] 804;
SciE false 429 [5438725142; 27593210354061418313; 29674604268974586460; 32972793307269198088; 79096915763066375044; 82620571660000471732; 55278760281818538596; 45926663346246258570; 71170844304243543682; 49827530395181669642; 46178916230003319249; 47987608096265972777; 16131122269722869461; 79897569452926494219; 51146740389919488631; 34216007252127047313; 7771636876792843163; 49753057987335240306; 38521970623394465677; 53033183226272822821; 1777251203397313487; 30576458199727753693] 805;
SciE false 429 [1126175390; 31816956812327437005; 23632801405365889547; 41568460108122670257; 23537445034431800152; 93315435077385608962; 88866339788281389367; 76505621051791337861; 57576141121349588727; 6589749947279740249; 93623128143630616628; 97346932299005627764; 65266598862898075203; 69047899770198782145; 36561733683475844618; 96662806654205353874; 61473320177536081422; 88581174140679581459; 51193384469224997339; 41387964916067964768; 32467074198961089528; 86425970750065587626] 807;
SciE false 424 [36657; 745893978237786373; 95943162006832772888; 71274262236626890994; 39511845113212243067; 36780212862652988403; 17947740578844299456; 95014013545710953699; 78276659691490610601; 48442003837554863524; 45339019245895390222; 37174149436478568832; 65651806723764097932; 14017252509618112724; 57103950729030228057; 35337524615888879336; 29889014380832549583; 76292197335610834639; 51966503638082001678; 69866655443654945078; 82581365978673110897; 89290444085328266165] 808;
SciE false 425 [760168; 38846476445848321019; 97853452140948621975; 44450558710572982802; 42363387775398241465; 10322987918677235286; 4994984779357089937; 82324141294209959153; 5656363895256910972; 39076948081214413824; 66870695611496950666; 22455709179301828798; 74114054954232456200; 76249107332344884177; 94812179170236346195; 11780247394491588613; 86536494491119836854; 96044792292544958717; 48517055534516726873; 20410436876318345876; 21861915275084298735; 43198337530256294271] 809;
SciE false 427 [24780137; 4224329288743588796; 57577516618954472769; 81401271959778312211; 10007296531476313540; 63423895153420160549; 32672631298746432898; 29473156900604701053; 15021951447652766603; 46794594187087742530; 49177010225283790323; 29725019059512530875; 80621345264530202126; 75662696501844201810; 2270692824434166770; 88166640340882431338; 4973721442803518623; 73525398872924216315; 29356459343433134800; 29859079910742873286; 25003401583022966975; 60340201681907927580] 811;
SciE false 428 [514633998; 99064553839313330525; 46787099422217077375; 93028247057909357240; 80013523944609471874; 88662820944488288655; 81604695624749887906; 33443656180142346619; 29358357088928728308; 55093850982158159300; 71460928983435601034; 2515114387338096747; 75215204015372847916; 20645663997486588470; 87845298250006374094; 75227486070805491586; 85206770488129550808; 22324382052937051737; 46046596867824093159; 17865765267520158200; 516641232070243887; 45274507983511221905] 812;
SciE false 429 [1680093291; 46409525776815320407; 83755626765113253793; 39006238872969567912; 58494704834094058055; 140091401886885244; 35204402055008150504; 38280037860998731403; 58488308150857575715; 12673485884548943567; 34201293274240983919; 55356292234949593379; 66127208935147704194; 9930822825036882719; 53952973496636507065; 77698215111828844719; 77218313822078562689; 25022043584261866176; 90367943484766539460; 24445617948366808807; 75230627328957160945; 91065674033357489957] 814;
SciE false 429 [3494364853; 14648320568937514267; 92684405076853955382; 56661797523204535665; 3291827583898314030; 48020554213075479972; 99095883292051738884; 1082425463166533545; 343244633826065215; 6087248168853901651; 85219707797527731021; 3077626690025676917; 23711235264381637351; 4184058542933935717; 26469575117543280103; 36794630420769287874; 72553971614399649987; 83582554139442581297; 35656392732525592550; 82308546166461874178; 3507993965756955995; 80413909208041196737] 815;
SciE false 425 [114246; 34381955847752823441; 78773295382620027701; 25795052424243361930; 61805577639928718395; 94774009526215328308; 19661593899339740554; 23429803042574547913; 73544377204954258315; 14862861797040149328; 16257925687942648386; 90652964227871976572; 34981696650207590043; 88519875295952102508; 2492868802197771282; 48047283478627604361; 44094450845339901342; 26286901498963729806; 90002945020156964124; 68329662302020488942; 99892715682658369086; 94432192465834268309] 817;
SciE false 426 [2379662; 46499275506307446447; 21645818079857337543; 61552786684113302288; 78788741734584634751; 85475701997419104401; 86160684296521887234; 18001137131740416409; 34414733749595635550; 41145645416002989507; 2491134621010116384; 82532195863775907485; 98063847351215043895; 3605949343867738010; 22345725780655046973; 75039357143316543885; 4268809254669406161; 64171619719368960397; 86349982003450849928; 52711052119939360536; 31524188943890680487; 3314261872170676054] 818;
SciE false 427 [77916006; 48493888167425587299; 23387450946858892257; 92225753333972836681; 51403950431385946036; 35874496878853906190; 9207039349703057987; 79125675035841677167; 57265253778804170931; 36471745581381841806; 87905319176886199870; 25321603408688022342; 57517115441576409929; 70554951839333910473; 136523098880014651; 68247332424026174502; 72415476521812715423; 27666822293263728305; 82008503747049533034; 829689977973459125; 26832095573007717296; 2755261698970986954] 819;
SciE false 429 [1625309463; 59005170807985923448; 84093748542561542289; 40553305249385463242; 12710604721305535516; 79904464237248306471; 47747374524448980944; 94776660978704407582; 5263150973819080931; 2475819130041833298; 1444946149909490835; 69489774958944812924; 77607740879874980309; 62863401861665060982; 62130708187397083071; 51880928885199473484; 15596720939204408401; 29216268328999951740; 77037708356930501184; 1648597918583246303; 31021048677334772643; 63640858692571745549] 821;
SciE false 429 [5329454843; 56981950651910171267; 59701644765148230441; 88241528043742029015; 56030209506798708886; 93815586513607183402; 29761491519689166364; 92196172451570718261; 96943358470205291705; 34667397766517979590; 52723831699016071125; 31997673154260728232; 14170696203826439191; 85958705810439476353; 29338179963393002175; 8117537803390335986; 33218594091989734952; 12410644859239016118; 9381656298188059526; 16750794493384604168; 35315337193727863048; 28459900209615507671] 822;
SciE false 424 [11133; 36982559185420034703; 57562456042177516546; 56468242790140958290; 42320857067642340942; 91829007345580025150; 89932962069515492475; 51947289220127704125; 19193706052584170660; 70437751959361040786; 55809139897881126880; 1222451004958468771; 96853471613025027143; 61512095614302752405; 66773095595351083670; 1903990384362863616; 39336646837538433550; 19754885131438053649; 66942427708302244973; 93311051292895742295; 23717767494183439743; 19260890939882044116] 824;
SciE false 425 [365600; 60226888961814721037; 74895715532830889168; 60831313368823800703; 19046743672372166391; 42964395749234833452; 78139761638318250676; 81263364657430177751; 27277110314391056083; 1098678183486783133; 39991016854854552502; 47919695040378382285; 95672492109759582493; 72856156767218596148; 7783592599145488759; 94921056863093312577; 4866238795554710495; 81771571370237343796; 50570123581622055700; 88349509104502246183; 84594902632131489731; 40511232349154379623] 825;
SciE false 426 [7648625; 7018160383563841356; 45407300975953867489; 93682796826838345520; 74428805470288227784; 86528046413477278667; 83944941757143330681; 87787694227732734006; 86076058125325243903; 90735596081035020365; 40879109844334166568; 39823840406468046342; 38334998148193647663; 58809687025990902693; 73116674006194481303; 8041394057287304462; 24276377388903848985; 71606085297942857322; 89447835603642297092; 4692238219374956827; 94106268504023103573; 32232075698964308005] 826;
SciE false 428 [251533214; 36099605728528073971; 28252286587651748002; 51943597750774883795; 4159646592050477303; 59504275473565415513; 60156007162956465647; 9194884311962292875; 66651896301046585111; 55890590238906795779; 13819596139932121705; 68750187780327012738; 22674571514592755685; 25035855846394149877; 55111708212096266845; 5687121808199053009; 47972291341640821122; 58841102723292531995; 92245024155974322207; 84462263897545374486; 1293010906464935206; 71727856218213181192] 828;
SciE false 429 [5269902673; 35512504275486694596; 85630372432214700566; 47447013691620063792; 81446969028588943772; 17823978885845002141; 38064870671754839813; 85721322907853730727; 6404048349093049792; 16825699833129031766; 65706682746240765626; 38626040056483929902; 12813724105423240212; 19874360907731955980; 77388390267997617822; 40520505470952774485; 26424020954751951158; 36592770282628695474; 29558730909542696420; 32952133149345254451; 39218999271918362019; 7900156586408216113] 829;
SciE false 429 [1735579179; 9087279526843710401; 84940777454797061217; 38410824480346698185; 78701561485148293394; 80579500767601367043; 85076449424399612964; 93444701752539820842; 9898084477221437269; 75645072648456890876; 5355213365531639769; 24376295684256387893; 76454543450690014228; 22747405340119634155; 10270786663464241230; 89241140476573465765; 41008810257321665745; 86003608790718470771; 86490666676222823234; 12789620893063083953; 48921775254608052926; 34922207905670950228] 831;
SciE false 424 [36415; 2747288391404543613; 5966427705873506603; 58091433858864609094; 64080834798555987549; 60146575163694101188; 96479694028256341825; 94311375334341293269; 27932401251974092232; 97406388265585846921; 60950760033177776523; 69047832905936790303; 95562370542833568474; 58986629331833872427; 81582714753776751863; 53915281996692804283; 67169317589984797335; 98250430856042652964; 28572738250830584940; 3226447699240061975; 70825912003284968955; 88155183590082012080] 832;
SciE false 426 [1201020; 79193088397432575847; 59807979017998719566; 36242980290540399915; 14456461480547722619; 2920561014531180145; 99434472903001684532; 17173463733612757556; 2273249474458237234; 59067146390272732168; 48622905807648947894; 72031668396613505420; 42248506544067877489; 84593341204495362786; 83533107384371117254; 93177754869209788838; 30966378096698066592; 69613514497283177181; 77413051541339946193; 67801650417657999654; 9581453868476188772; 62503366167870724297] 834;
SciE false 427 [25235614; 3870855243348723850; 34734400170340076281; 57363664193174102586; 8018515399299371873; 81576588440012123952; 60427961581644885378; 57783106698516235610; 57154067618045917451; 2627068050991916675; 38876702992199130917; 50148203814195680641; 24722786183662952890; 77734126960873592476; 36821324367289041432; 63290423708113368584; 48337089859464553835; 87548583237558504250; 907607825595363442; 35928255573362949165; 82357018276483486425; 91542227926834371975] 835;
SciE false 428 [833508429; 60003347818207638233; 6737438491111379055; 52628321635037541110; 32784267500119497606; 26869344084639021320; 7524194683169065327; 18383831127253743879; 77635135274016640805; 92599594849276124929; 44296630508369838935; 89977867249772761773; 20463541583106977953; 7778795919781774063; 71976524753555374922; 65361879231593453786; 90666399108458215331; 11779061114524964151; 24657769689922658412; 54345389854651759942; 49528984722475008201; 77336120502282662504] 836;
SciE false 429 [1753875175; 69024439412736307599; 14040811838635301569; 36774661425600129732; 57286820251306345230; 19572896580842614705; 99743329924319533811; 15925915546878374934; 72207699454191262846; 32581229543938208939; 51930857957839598766; 35300165086599804566; 68233639764575225909; 2521823780714677107; 59082043526588379567; 98684447713879116621; 59427745232786491593; 34626535010316045375; 63078743878877759243; 97013762348724967024; 73812770215602306601; 12184840914988852327] 838;
SciE false 429 [5801218670; 1623300814725162102; 14892571898135198226; 46293118579861286127; 88178501800831703339; 63010634829087588387; 72368394994856694677; 19951464645686057403; 24340541507155820009; 24493180150961829508; 92304548338254078993; 86245956058418421941; 50426249418424566553; 42140419601681147483; 48956612284745409461; 66918679451890438356; 87038137794869178704; 57982265357093750492; 67618077041861702551; 30243913388376249199; 76721733668426057084; 34259398695887331035] 839;
SciE false 425 [122245; 9974561003427067720; 63966008644585152880; 51938493193901364329; 4236032891371516052; 26254464230891684730; 24500802110095725071; 50663780036313617422; 73295012876651957131; 2038890911699212493; 16308449580799661420; 3401480421506536006; 37829775884691590893; 24585905771117515812; 99439908018433803210; 5588868306005657374; 42852512113842725218; 46405623469490219028; 36268146588448357779; 81930471859235706130; 20162424750084027480; 77009819283411774723] 841;
SciE false 426 [4049250; 63167133063968678163; 14729995015184898368; 36207112596768743177; 71726148594256980528; 93106181423110703136; 69463113139706409972; 88468526122322688868; 6746389697971994762; 36645296239745371356; 99722828574740101347; 13771599677328776058; 51516997522094060347; 45428814012881973440; 94347571715374752295; 80424509238257419525; 97309552620180818686; 73579671621219251437; 84388797417775219468; 38080910251545086621; 94143751770100561387; 84487113060289729357] 842;
SciE false 427 [85449324; 72218141395520336727; 12240042565021863483; 5006742537053666000; 60986991068689720531; 51870497393287626441; 26060674956911824983; 13982245383218578490; 33214000779718034583; 25184747277749532720; 99606256978963332603; 77634814633068668458; 43013343399422034378; 85548134011143553283; 8495704885228443829; 6618945897954504725; 53905967576064927706; 37530805173663100825; 51434465325402088093; 69399829605758585010; 93534900308735209058; 29863679104830531382] 843;
SciE false 429 [2834475442; 16993144778074714203; 10996510629428857853; 44978817738120224402; 8304015979886370251; 74326996177492195686; 24179197794486981019; 27968285625882207647; 22472788580396333656; 51707367821759949898; 5980002318070942996; 40119774130143240960; 61898265465842243218; 169809017381408660; 43300200762326607062; 97156466780193668181; 16686834126573080715; 5770134853476006490; 72158192442653627866; 56637176081560635359; 626239070392971491; 40979142202810549943] 845;
SciE false 429 [5989997663; 2491711825975604571; 28026983808032630161; 80972651847461986642; 75188073915149409259; 46121867269462613532; 36853314479518931318; 10155401363622352172; 28301454658234224285; 95450784170242243741; 82398614225329615524; 72200505778113658935; 95235372299484609957; 76924194181163085144; 25548912454513912417; 53988107446610781260; 28808327082151432216; 90909442673783367868; 55556019310686375367; 94928055363676809266; 56796511642338154986; 73443905248620249880] 846;
SciE false 424 [19898; 1760403291876342084; 49370583195504618590; 58213121751300521603; 97530262294192178802; 31916723775513165995; 21371741737968517298; 60675534337365093693; 9768351758975834382; 26226874985722108754; 84828437979616272858; 1983473640814393605; 55154354525823570212; 54739037192059302017; 48879623967409351532; 78158206038396796959; 55063179141575568543; 2661970506346671401; 56556486550510947428; 46762329592976092555; 66022022396198274158; 65986969673578263730] 848;
SciE false 425 [421096; 83571065167341366085; 136100296961704693; 90037522377424876577; 66098545721596235003; 47094012367269043221; 73132550788007910180; 87166253924715862651; 35771149592262473865; 96730260190127168029; 73505022622580040671; 97138795695556201390; 22319745046672653768; 8003117770850935764; 88564116088545552328; 4295305363953496737; 92259825225393875245; 68484870933819966970; 76115945588157541252; 18836683442292066479; 69143972794768456372; 29556743106538978003] 849;
SciE false 427 [14008204; 39323917480944827483; 56890569635251487769; 82037712915567209198; 61304655111293876832; 69373537961268860630; 45706183529836178219; 15576173505025959940; 76919638318987405112; 63719989948364563413; 19220337649856092045; 96365443133333098308; 28665586179793429633; 36282183209748620312; 11255273056183479078; 23377051031345059523; 64478115669200254290; 74027236468056666702; 15766531559706989641; 20680033455169159184; 79503766923585007696; 54826650199097665962] 851;
SciE false 428 [296873269; 17600942975663089925; 95950709358001809199; 76453276084537987250; 99474733725345677447; 1278718924675471320; 58448305545576677514; 52209016924683169207; 18660462545044075506; 94833434039653460963; 21040948918928673739; 82850965367121980107; 35420257904220906496; 42198028449909714244; 37701842424614391270; 28190281587215200235; 43176783902682048207; 81834008343076714386; 61741639651066582792; 79861826815906868182; 46500820311761742468; 37503890109979492514] 852;
SciE false 429 [9889792301; 62685741547048203399; 64742162487550365493; 18625318390449694220; 81086508573477043881; 77717800655815605102; 68565572064341822723; 96778494548327718183; 5264653205108009521; 86312903545381769713; 69558380798400984450; 34002852133167405650; 37903842934161321154; 15221346082525940351; 46222777665536229233; 4198028129612023693; 21549662455379529262; 63228946448006691723; 31171281153134686692; 103619349426384465; 29659448051015433763; 7615040562952169641] 853;
SciE false 429 [2098894013; 7438666837938045776; 53371515161072791042; 33524661917683569864; 53286367438193939550; 38040542797455582236; 53229520207227110027; 67117749657510006294; 80929470193461613834; 12472378660349969009; 89759508856825723340; 58756325145552399358; 99421223382841808929; 70340061140861679707; 74552025942023746280; 89305290821611465664; 50259862191962080829; 27566438985552370713; 38513392333040740345; 8623115588461558050; 2760799604155519251; 41152503077555012077] 855;
SciE false 424 [70019; 72949551815050153101; 28006950374510411856; 58769175867254204383; 83508334092480700217; 47068298242028643174; 48412701444250215540; 10488569191741402160; 24473601273744692164; 70741479095357101302; 92957296473336052678; 96990840740193102825; 23200468359207973862; 15377139767130264283; 65768835257265871996; 50296993722039157653; 12774796571610184087; 6717943660940851887; 37740104692670564193; 58177936733624993938; 80201429988892201189; 27104257914487185701] 856;
SciE false 426 [1488115; 85526974014788098074; 45556240404249200608; 84901568985299637651; 3395380034513679503; 14121970744843396007; 80570139729826924021; 961886484507174594; 46301978994367164284; 20839442916470188128; 2801739491779489437; 84847658234528196651; 14552689647378434842; 53115971103348870930; 91279157386392894836; 11315317451192522529; 15613234242294101115; 30795644605240756630; 83579005995164125884; 90466613788952219244; 65746957406919346263; 14925077124681986503] 858;
SciE false 427 [49714007; 94181788685608701908; 84934765902392418177; 26114865750485112522; 90917205661297154404; 18491751840336653883; 73018025417653033474; 46884126136395533773; 76256904358731436942; 26450157703541925079; 99680496068597402068; 63496925537103005914; 72332535037661442129; 17769234662487641396; 95873032658769117517; 10865542647801933720; 70105565843230701817; 69739999268004840037; 95474331796100577443; 6335080873745696549; 43015292113462844382; 44023119285901847966] 859;
SciE false 429 [1058050373; 9678524514337730937; 90486927421181632891; 65015548548042369885; 14115204539226126733; 40721199583654561549; 85369347906942978937; 83901290484601136663; 20707064995053806072; 16843913610303759027; 92036778655216990310; 26685004749547818964; 46962339286067173039; 65455454481047231878; 99480901725348228476; 45190707797883518230; 1009546271105892983; 95703314326177964524; 24673262561693504167; 21762403945027882951; 46086716319655193099; 11729835648892404033] 861;
SciE false 429 [3539637365; 45743354415339575910; 7355332250340174220; 99378441434540011631; 13305043084357393577; 96612731031969756521; 58883409736895983382; 18149780911362004691; 89491590341678310289; 23251228492185065695; 77251320084135027286; 80981098241734021128; 30076494681494679597; 45169507969120067463; 46159925304361167218; 13626636523497680913; 91516288038025969420; 5487947881944610702; 37772423882361113946; 11057758210693594319; 42688798478554520029; 74446093156211575204] 862;
SciE false 429 [7543899160; 18007879787228021587; 26171792513025042517; 46560861147542097281; 5641408364682283609; 19342153031457023850; 45683450576503439826; 79216201155206104408; 66641373414733637294; 56097104041465801869; 7222231811697140912; 20264083864275949216; 66841479109658943772; 73697390449866763297; 23298829301732869037; 10209746598909484979; 97198064912985016975; 61364631145648887057; 87920362064874684712; 26165940128048805443; 91598287359141526796; 70633728176602840756] 863;
SciE false 425 [252730; 10789366075505255245; 71997925170722674288; 43937895620718426156; 83046289980076223117; 90146678148995682640; 61564144275455214373; 21348775894357071247; 13500129699550395831; 35465120137714342013; 69067815744254007240; 94827822050414459809; 10856067461720258720; 12325805102868995172; 81689115818666731387; 33937492941847777734; 41725354262965915054; 21659191839478770845; 20414976951065200583; 53575229523936243522; 63440707980211368792; 73012375451051353506] 865;
SciE false 426 [5393887; 89952875634047868035; 43489212831646812905; 39998791015720492599; 55595533606980747832; 78057329639417491772; 5307663667162199959; 47615639583825972364; 65219648581991534550; 66561109429389648048; 33638663895745363455; 75222488819962957303; 68991791657563406144; 79750693634171654735; 75752158662950739001; 36152799968818220281; 76067996616412784287; 13756375711269138954; 24638363058876385399; 56926708647191554895; 89239992775461786191; 65964503115646271031] 866;
SciE false 428 [180954757; 25186110061762755935; 50514422237434790522; 59533264434393128290; 61143625734575752417; 45021554680908770680; 79927301225933491220; 85723540359663012948; 66092864878083415249; 93026018603468881802; 52556072885869184518; 96720588096753223321; 72944302591705243608; 25276453654200543736; 89406926165379673334; 99244946363008857842; 75353652283595178819; 7981357066799925166; 17123496962683617811; 59864339138350362206; 23546913831340055594; 76860822952769110632] 868;
SciE false 429 [3867417623; 96211829612321381406; 81765600290764853171; 79133158271593193881; 61997596205196196103; 67105351462341600562; 5594849355297370944; 40413581603222185455; 62488033287930272827; 24315460872377650657; 18922013249425597774; 34524483913440386745; 67114618472962205819; 81247335701076445538; 14297761335679863976; 21557577642663942022; 40753573967966333877; 63321384979972630194; 65706313214368331491; 16450100036344860354; 85074820006100699419; 96548733918376329327] 869;
SciE false 429 [1299255157; 6836270243456587616; 92693551664781795952; 23448838638942661126; 59011232774253902357; 29254762608924973488; 13878022802202466965; 75495019782380432971; 38546769824638921494; 49926813572906571342; 13352603320540744846; 18453822534688143450; 1740092608443649107; 25484937237159904030; 89941729867426054545; 24578714886403599310; 97039223396213383920; 99306143739623462693; 10946708192068375887; 27825955013355600640; 77066841309021599170; 43860708800882214339] 871;
SciE false 424 [27806; 73271628763054912590; 73231501894666090599; 29430517967407972755; 6400884762716715360; 64998539487477014236; 10804118226966864588; 9709026573651727167; 51342594288959340218; 66162787828163672395; 30822519049275263370; 4799754231039337636; 38070137554106820598; 25984445168343690739; 64341924800904003538; 22198898998983250753; 74314111018196829677; 94058018280758006003; 21109958428392011308; 30342147276219261319; 54595137687955843864; 2882955185396873125] 872;
SciE false 425 [935463; 71308922114575288743; 8418739357198642893; 8560883163820038716; 1114488087597462809; 69725063429078425980; 91145992176417585776; 21534356414243313911; 73939753674273740023; 47603947305772492731; 36633613874390789336; 28925286752224975463; 28401252866678079427; 35722349154810755130; 90224758045504546759; 27257696674718210591; 50389868240845273636; 42311500423492528893; 13903881629898289230; 63884034687609616032; 46135488125742495551; 40271579710336635194] 873;
SciE false 427 [20048654; 28844338162591977917; 99912866054251322091; 19403454501148356401; 15037913918751775028; 63946970470927264233; 89769241643109368018; 208159602895287777; 18010482339684297655; 3370024106007797017; 23036234527464889804; 60622800579362435830; 48569176511017651345; 34784966375801023282; 90527781451786551058; 5406178266923793448; 80474044119914197795; 15831180426522328315; 20280026870640153286; 76688186154087411392; 63094273016163425964; 78610688671145523707] 875;
SciE false 428 [675404800; 85041766723358472506; 78329815897420168807; 80957644278067952960; 4660399245368148601; 41495795794623558218; 7406351373496930427; 47805331083672644275; 84502152825640296949; 70049954767739752046; 49469217310149900800; 84057035106432284491; 5704569741573346551; 91536089773365204511; 42275308854282760194; 80056999146548047065; 81484869890287565497; 48903305761605860846; 38602536786564824521; 24273044454142775437; 9822426786081788112; 76080550863050610302] 876;
SciE false 429 [1449517705; 5445649155400003471; 33700215722370587193; 32869760433026167803; 17241176325753334570; 63365965048041204110; 80316170796807307701; 55049939289329306290; 12157873159174720458; 93652742864363724345; 75519756335711532873; 3028481887904110544; 11551461746576192268; 64953068970413983354; 5158598964167641497; 30866688698590266348; 58273389869796500589; 94594344837564337189; 16245942747283082633; 24555858940519843687; 21715939068615697254; 3552790923821364050] 878;
SciE false 429 [4889930758; 15702391077115340949; 11107867097322022168; 54133344573211979430; 73741290536465395874; 24429561553074561498; 85621983944117776294; 94110597045789944557; 11795586457635749915; 83161672518435804816; 62157133325485281798; 8572934170569739715; 25301084928991029035; 86721289959164080662; 70073236105007183810; 35612673821007860756; 49950458005681974201; 82059933714026432527; 83482366334729329533; 79736841847993694164; 59114369931232145936; 38823188248486418588] 879;
SciE false 425 [105090; 3361644809563766500; 25167193265639871867; 57151633057631394397; 16572999985283617116; 75637094032465982987; 29803322922382768529; 80836241120598476374; 70603381445804040167; 23327289823857666370; 1506725182334339086; 13329469564936873048; 1444837480976626773; 93947709097500355013; 79316873998424902154; 855487834930647794; 31027224820765560246; 29277108090000723414; 44621427830849178023; 49091030299773187688; 66732324405582474638; 5091757577341977048] 881;
SciE false 426 [3550089; 73042199935921985737; 52905464311512655788; 9436100808160151897; 6671536176929473877; 40470135861687532131; 64816961560343429505; 59012724293455243499; 74846763595768243554; 43889375374248384394; 29686726078794302314; 58541023950207833631; 3327368587658447487; 8003959656510353122; 56112073169412235215; 44631854801194051706; 90921864032512125113; 27052175511876383190; 1520808197959013493; 24153688947181643421; 96349317032570074537; 94981785634668401139] 882;
SciE false 427 [76400454; 43915776552858245682; 96549504120186847724; 49237232898023726739; 48570989301189643881; 88167361602769631765; 67015764572272721170; 67947294675092324411; 28658311099537201578; 58939701944523451000; 95389207557064515618; 90524373709106705906; 50396848670007664653; 99984513882758095027; 63367396854903865964; 21939655994580946463; 56792444696562299054; 84457581430525922302; 39778033027352423077; 89179027935107449661; 14399842858459061863; 1707758727617314545] 883;
SciE false 429 [2584465323; 74721553351205616921; 15178018781213413732; 69481388340590581064; 56878336804656982750; 62258907308523391839; 86748015930016680069; 61263285635417267816; 88443897719281307631; 51465272452823839048; 11936585362252085018; 17865435751302883392; 22324331815349770594; 26882629939537073224; 49589267332107236844; 91990295269269642629; 91117015668827082460; 93983772646006962331; 7148368114161823079; 83885553548236411189; 42302799711014263627; 46739942038596029843] 885;
SciE false 429 [5569593128; 61460110703366110288; 18458850361621199115; 49394278265929679308; 50825120056725038989; 17400660841906155717; 35449237318681373342; 53357781814230449582; 79190879156261995079; 16704271755759577969; 53873230910003188618; 19226843393878860584; 13930268043558753276; 58871062053065127514; 49483230722491828791; 59400922004950997194; 10169218379391601098; 16957686285339735844; 79818607693991642378; 31151136469333080297; 39748544381665609813; 94495611243302230379] 886;
SciE false 424 [18866; 59686335467339463801; 352440799537102857; 92024867214134886311; 24177135211858673995; 97407954490023352220; 76043103260516289121; 76450817221985138546; 5506325640453350753; 54571005696488905614; 2505127137073144440; 22063270417680984511; 4876322967622252053; 32533816243198558620; 63453882001651524382; 82896791529155465668; 39119835154214382437; 70196486081540315850; 82501682183087233381; 30848282364540902125; 80168278810437890404; 12448051201576881751] 888;
SciE false 425 [407137; 25770172734092416062; 66206629341961434509; 65534260721741239459; 55745195316276146600; 35010861988307543339; 98293861339247995608; 39133920453850620245; 86450208853266322751; 84028711082265346025; 14957328133179521233; 8798985482252092544; 70870058302593984144; 86451863474636079060; 82130957224165814152; 68466552207398561917; 89488883369863533526; 4027619606867458334; 69025474740222430789; 5785457148075908248; 16973975618594299756; 7739937629181885393] 889;
SciE false 427 [13810348; 90397562092487502334; 57986665261159291997; 62202800746736779828; 97662975080549365053; 2622686697093825596; 63551586697923637131; 61998206493121415712; 30630368811852751595; 45976169829878909466; 33753064337541730241; 50313945742480662087; 69468412299488503034; 14753490021344910304; 48241625208915848230; 80451399341800869262; 35719332884927944397; 83827811687511202803; 91231358019854835117; 80942690843940356086; 83180089240535775819; 11973479554277441745] 891;
SciE false 428 [298431609; 89536614089740973931; 29459307657731495577; 36613109036328523855; 61228166830415458056; 62961837429429268207; 49400361668780780950; 85163692672504640218; 68003089444214577098; 93045223300498636434; 63721521620589063853; 49656358490783835271; 47752735801390378185; 69215926908245951582; 1991645313541773917; 85982768023145885816; 95351510109970074587; 52245171833846959327; 95672984583041768379; 40740089539640745908; 41924128429621721204; 73374282190321993098] 892;
SciE false 429 [1013679609; 55181057588582671358; 16221230169092032625; 45685574810479639446; 88462370912323394892; 12505203566686798793; 4686463627594965460; 90668356595111913283; 28269070789991967106; 74650865513111954829; 17474922375562999726; 33043617498080597236; 78981462782456122706; 42906167566716416349; 935290334423260141; 5132711688183803857; 1799033753711118801; 32961377863322285807; 16381678657344897647; 21193507945222136773; 45418550255325945123; 38853399283964224088] 894;
SciE false 429 [2193472332; 73094113559596158395; 1525911284326492493; 64106351417014650338; 75027026203553616716; 22769505106305121325; 8092658265538739988; 75953141142909105607; 29822707414977141677; 13882391258664977794; 58353183911329619323; 19974234907261189245; 35982608140219279664; 83737062775607744127; 84638593054532038296; 26973344970122260754; 60833599308280048218; 29002012978775151060; 48196436685356997588; 64439658116359482426; 88142343957719650854; 79300974098866649277] 895;
SciE false 424 [74606; 81926301325838519684; 61196073882540445173; 60123362458306051301; 46329070830499147001; 86406040382982508148; 39116824923722990989; 45792273191045400236; 81764960603610143408; 77905654303701765039; 87542726154286841436; 77985792010247858731; 95662773035660788770; 63119317893932910328; 24328708837368613551; 94638137767580250327; 96387652408884273138; 34377785957410740520; 23540725691549180584; 46683479842184768349; 26652622805298791989; 56108139610187299766] 896;
SciE false 426 [1616589; 10922270361693422368; 73712624596616548624; 96781346380994339797; 29965894918312019015; 51985981125263346874; 41658464289141702051; 37171577465022324010; 83257879335364838153; 41605131322357636088; 63460806296542649929; 44119821011126651496; 47383019182199341609; 11298514215265622907; 42222278643081190112; 22435079355242980106; 17614634362690202395; 53687974483565357286; 33157520773837108107; 22283092028031756938; 54861160907496839382; 67998244817910864720] 898;
SciE false 427 [55059832; 61610378468827527243; 62702525314848538117; 71041494229865860479; 90854272908370487375; 67657802641091013512; 68216793707567350219; 94697614991505374771; 42540925464285835678; 94372876131902599428; 6531901863688980343; 53514503562919744183; 99126500317662112725; 82056605722487822243; 54587121978036801336; 42945672474224742037; 34087477756593576097; 70806036569126503933; 73055560363295271336; 52408123532359041758; 69635630310508488296; 7807032318227227966] 899;
SciE false 429 [1194659351; 71557797291439130496; 73629576899629433851; 21414975554817110204; 44796344632582052469; 17640051569613340193; 85605109675717815963; 69795746651497444005; 27572828834615395374; 46192047222293069500; 97535853145018297857; 4547727222595455894; 16051175645313449134; 49602005081295328585; 2263917236999492933; 79523643524562298464; 17214794028059570301; 75413143354799034599; 3407851865622891237; 67205008715468377587; 42397910640164303800; 50702920436129028461] 901;
SciE false 429 [4074427613; 59168006693237016028; 39986873298791820710; 57070573010073675513; 23216195219416065800; 6677395440734999938; 48042734359983916276; 7623509371397733085; 48028484357151840241; 83592833760792357676; 83360737912984545421; 60073263656061069615; 35361023506996341710; 72188823464098846022; 39447026374723298895; 77979763092630910763; 22473353987924631230; 39646706115361291096; 6111466883850078902; 78201141394569090143; 53036642977628133909; 77720391548814869555] 902;
SciE false 429 [8852425796; 21243277929563956980; 81595164826254104837; 49684968861194786614; 95940913727433008796; 59712782130834850836; 47333862697069016291; 186482687596060079; 9314661664500079724; 76283069917191645002; 22740671804585587120; 70698658719432328175; 72939211531772658086; 61550857652398384815; 1775626726166242639; 42270198517006631619; 51561623747921415935; 99811392259060846378; 84252182324265624071; 14989114581620677922; 81168517843617491161; 75708640431716100903] 903;
SciE false 425 [302322; 52892850266096638186; 58930727025998770353; 9672434636517347466; 72308182641685280672; 8236495462741702536; 99543524770889510806; 58768485664395357711; 79494263713539300666; 54594422588265050792; 93962105366753143453; 27028277436163279731; 36545923787944219128; 55493556410701036134; 37486166969357004468; 77806686098421473213; 57863127522865904007; 63729541785593759807; 79932773470842781675; 85458642524691477026; 48864995318908940007; 53610546853052922063] 905;
SciE false 426 [6577352; 36658583755501666020; 3674625207465906799; 89426015931863867726; 45491484098899482725; 53587166597123210294; 17149969059983922279; 10421438556636883872; 63876620793616723559; 23549878320948473392; 23665496319150807091; 23068529103428538219; 83456693834168107084; 95835532287235731999; 91755819290657541518; 28109106757498135927; 29330010286444705612; 4044659864448482208; 85947999371466929358; 68486436912134144163; 69664908208757807795; 93318551519840765062] 906;
SciE false 428 [224927961; 52280597975898810822; 44460907343085142703; 96291369568906515241; 97287885413848820029; 27952624279826687524; 60382429541796040101; 23753334310146137575; 43732202873239695910; 18250405669197789947; 7806392864338729233; 9038412505480120135; 90167298230499031644; 87205969561570883974; 89708225201611324770; 88174457225576070902; 50166877012232581682; 14779088481757297002; 69983462307029566835; 81230038370458907707; 55556517268251365606; 86246858671374015110] 908;
SciE false 429 [4900127513; 10644897848741184927; 37595779562100565921; 22381869238581456208; 91155653680114630524; 22439114856791669157; 76726949688022097932; 63971724694478485115; 88082491244459051630; 44659349106612677216; 30794757767351282966; 86054182054260973776; 75236906455239778293; 97471553990620339938; 58085371539868431119; 41284534336111265833; 50857663401305680970; 13271599014119245600; 31259531742862372220; 22395499539937401954; 356615524566807970; 22320882281369971913] 909;
SciE false 429 [1677962592; 96013260900205128735; 43678368779415164571; 56333616984042603705; 11767625187312197418; 42526577127507088933; 54452924381798459155; 23199873953690186312; 76242233434368131489; 96148026292215513005; 20235690767966920078; 85426557290881696213; 82648044799522776070; 74556532929318794452; 73223360004020482790; 77781450902797488932; 66244902511255059348; 82252000073909435640; 14076628810440568595; 15976086243623451498; 36451618821155187427; 19401565688450152727] 911;
SciE false 424 [36603; 95252290517386930096; 65140749840473328891; 22743154192563212203; 47788056932732990456; 29001595620187980233; 76860852150314169525; 7155681868783467754; 28381562976209596109; 11567943605337826396; 69880582036840522114; 8376244824739945329; 47411234019691220641; 14385599112508309933; 93934119897725402817; 18046201395471490751; 15577630906745607753; 43684689138844635470; 76463433508702119181; 92048507294381563332; 39259640663917968514; 5553756736990641833] 912;
SciE false 426 [1255116; 1953417919153353436; 29410671419847002543; 9952937545504063867; 57142802183640109523; 66898209879691375302; 52229130787437585247; 44811353505717360259; 36194629190608907362; 35449118723666577203; 72789136296694439256; 21898299064853579508; 76794220737510043036; 50091768286631130458; 25064371073283007321; 12750180525275292521; 72163151187078418784; 39291924496055284257; 85882529318350209545; 30917950112510230341; 72077665810878224080; 19554112371134960714] 914;
SciE false 427 [27416360; 43965597522810642391; 90421630514523339529; 34622490229845940404; 93254642617009851761; 22195119520797195092; 68778260585312974278; 59605719718817347958; 57790669180987485727; 64389760398031971127; 40555945593551063448; 73807373730219051776; 11014280748724260216; 74813735268724140520; 56655803396326710068; 16604845208146572615; 67645549152460207324; 19832164994631967602; 71111698017887267258; 44331963491790935962; 5470857274558417027; 59763796005990733433] 915;
SciE false 428 [941337014; 65063439365015077220; 58003564885251907324; 64703159128047900678; 57101637730082142751; 73657409768531476891; 71848090578188935586; 8515129288020194521; 45971892956680521765; 86839042749932902795; 91852222520829442164; 23724298640184631575; 95665553132532277375; 68826214973347843687; 98278304962255490845; 62635393956469391291; 22363390308814088294; 68943372041463193394; 11896988762657158981; 88462584382672756290; 58249358158668060146; 65584278351220535679] 916;
SciE false 429 [2058968669; 1816373963079243632; 664451640702798653; 90149016261430124410; 43423660537439867267; 76853476011869351460; 85247369957004368322; 56389550883182831689; 20079255492160178146; 5671005892201031668; 15751514075684865000; 22933767139450788385; 87172484229191942277; 78511518681182953094; 54850835064135926119; 27023875131807603437; 30180741349761570047; 29395591096860766963; 60488521143333771109; 9330458233499290750; 30861381319337118772; 58261080049904080890] 918;
SciE false 429 [7078854350; 17277064024913380698; 76186807937094343081; 34567756642920213102; 85404315730217713493; 5903721459356706225; 72297641147980795607; 36033772245911862801; 37708635034237523679; 33029601479495429025; 30728713356637405075; 6406725774188429451; 19404959556642725865; 17573136599575784533; 63052853316161291159; 11018162552649822510; 172695122281943976; 6454157751803214323; 77465355495181835543; 77238634557699127305; 18035173353183812302; 85193773201178428310] 919;
SciE false 425 [155040; 34077706772959419867; 4549010033208544920; 73863878220924485688; 36810569801638469222; 526297066743693762; 16500219126957762428; 93468906133181503667; 22619681967938559661; 41439807026743682737; 68461226089009899070; 33451726912665600644; 36545614088062458153; 25351721917356693076; 36801950267880329435; 23678104897797425112; 53882882609823637046; 22456123488009593615; 75235944785642093032; 96451472583504982496; 59349823862013346085; 4357547059327757777] 921;
SciE false 426 [5337456; 18003026906274784689; 4686644853184569134; 68333464088508761840; 67955194854060584155; 97376651405980354956; 49419512421425577519; 88794969464273417544; 55223832310815815092; 85421504319515539553; 48508169449870904603; 42659830671233738075; 80620031339505708615; 30234250144996080141; 53835741851400385613; 53396907694564697966; 17254130212122200585; 75795266434944859623; 60012608878043367104; 437930456505141; 98810598520708300594; 47635036104993688534] 922;
SciE false 428 [117055457; 28668613584361999619; 34502575072451415157; 67228056797986694717; 91980200237044262613; 97354285391488790434; 57665440853110633845; 69024130552035268755; 77859885793612544367; 87054305191480466951; 88225697202473798102; 56053819062528486495; 91938636487155905706; 40550047604303272657; 85472452249648723603; 76969197837055959966; 81576370416845969899; 54373233447243179893; 3138313159780239888; 20861800546261784928; 9117015820076294207; 89948029792457121854] 924;
SciE false 429 [4035116872; 10288341143737224919; 43103509007534265820; 60098850912623951553; 74127309669801621916; 16748462921148347109; 61151390597736605035; 28996914990703663681; 49217226976756210197; 78657265553747902434; 72176104102403880190; 50831987452705985309; 48743692666315713168; 57093109617036587002; 99820839658691523831; 68062217090911662426; 44122440364383642833; 1221424818313875441; 69532311800785530624; 331075425117887343; 812481655475249424; 12087295375228532419] 925;
SciE false 429 [8861098116; 60214048336203371184; 41844932984572127435; 79163899607592790146; 52901157944250679877; 79719404135701435897; 45273872580474982118; 75126682789069844812; 43993354576469608647; 80010902995071348257; 48685278227266516363; 83274103033406427741; 9754782077702061974; 89638603645757740199; 60264635298408376805; 36568276265136169487; 95331240555239921395; 46053771956308717902; 47570306195364159537; 39238301352017119056; 50158097579775471537; 99065855289004124402] 926;
SciE false 424 [30586; 18589053985625869528; 16488928724598277109; 73492015549289917689; 55277735885007297096; 29412454953348942304; 47109085527540730843; 46616749796615629533; 77070571066580483812; 7329922222072897409; 10045519094869096221; 41184405306464891511; 36864591477190410673; 10581776765770897137; 32948272641964612881; 75064413911605549110; 40119242448097962028; 1267423258400122819; 17584805054923449954; 32212994509551722393; 58606000158610948502; 39063483621698944232] 928;
SciE false 425 [672557; 34705010246268717835; 87289736030413529024; 47237658539980216292; 77212155197887968626; 60272480702773899738; 98461666286928858051; 14281322115223690401; 22126419095612354043; 29636802827537325915; 33274325212617449528; 59201490504420235547; 86554930387959697586; 50389463570016713012; 48114984085819149195; 79952725532168523835; 26413565641158142710; 3391545481291483831; 68879790586240228139; 70888808187072618099; 33638846999606304958; 28973349098416435413] 929;
SciE false 427 [23245501; 27681029075660841405; 31585830694690603398; 53931817460337444060; 11079272605545793183; 53465764545196151398; 2905000930955441034; 28729845427878445665; 73634010601167697175; 70740888775402030916; 34594512100513128273; 148032913317548640; 17089522664712111560; 42150341985881824370; 40687207893105790130; 48954572820217323904; 90624260554451141289; 63241676384093342573; 64451841741821965284; 81875827259309019125; 40560120544320861816; 88247552491197616529] 931;
SciE false 428 [511816141; 10512797410494273099; 27489119144695587623; 47858148924944598799; 58450105592744124844; 67357814810937701367; 29328044352860976919; 68086129685228395329; 38204931761001426948; 53606951755905021568; 21761486801879091258; 52334273863799251925; 68302025237329863329; 46381776782718602498; 15502889308372538003; 44024129980246638636; 723452921346602335; 80966111262819195915; 17520636128813614318; 46383030362262373594; 99162566700398073258; 48718663894907349325] 932;
SciE false 429 [1771307197; 29294415565356115085; 6840298935423978968; 69604490477713237380; 44240572542589440585; 34091258343946736529; 81361070938804606812; 69214221604337559729; 10911607808978524788; 90455724685634755825; 56101822059100374402; 71280107994797206381; 2221627051062900904; 11856059324195017025; 365241454661207943; 30338448900560081553; 85568654249176966269; 99015740467912704111; 71230340726833754703; 18938037159347257355; 90681185477249670446; 44463499829258379553] 934;
SciE false 429 [3905157156; 63212644242071303747; 46741979074027333567; 14157676297327288840; 82974305672637672564; 85940127007454661432; 44772978412329253897; 16497169498292656363; 18503629336440887617; 33021041897555314565; 50040144298337466302; 53310509580788292192; 96144452560826857203; 80892956852142937060; 92287045422882464966; 24904111749281852792; 73519945789874575822; 22771428935310464832; 78682453662847877249; 87902521664061910529; 78610383924037298962; 25723405518143075350] 935;
SciE false 425 [135327; 86987318093349193207; 19249922598838666391; 99320837783072497291; 33586579979742253833; 26072004572137477530; 67087775985819724671; 96048967966530571389; 56330393646836605959; 29387230817365982495; 34507286179205315268; 60436725800250802506; 56751009732306701205; 62907465802932368499; 30071027904447136116; 28686837857496002790; 23071457445184637120; 22302724802571748530; 59413481998031530098; 85932366866038974130; 46199128042570461874; 82210837011386955340] 937;
SciE false 426 [2987445; 22482357672845184547; 36681257613991630910; 17886330622367455375; 96323475343839567819; 51211744197160702815; 99582251328485431879; 23133120334666193882; 11783655276442377279; 2725761097051629815; 64260780710388228161; 72143782539829303043; 52761550506209032545; 76091383111991889346; 85160599589748505085; 69918051645488200617; 38644242758529254050; 50400420143135512505; 59708192077052078626; 9615745429073007361; 55528636943701888533; 70612678405221379452] 938;
SciE false 428 [103661148; 32285659505481996709; 45440710710418456266; 79761741833532925163; 27320264482566436277; 71155502257307788493; 89236405137909098721; 73509462362417684405; 49081533476840164819; 10618806102342591434; 32581213271271495750; 94531962992114720030; 71273454946933123511; 87118805046194270464; 34407374806506265075; 74117798841938137316; 72736403011432034090; 83887198769959374435; 10727210492152055726; 24193019385854183933; 88532080608973796113; 73501150722407790591] 940;
SciE false 429 [2291370487; 43968335072256547830; 34524589931580908107; 18815587355838273363; 80105588724948517565; 79407799222259059868; 79586768948326251370; 43103296688970707584; 38063597031303373013; 90658761438600068597; 88018804867771000040; 34281208049075434385; 68109238262327962598; 62090846897779129035; 18179885337103400731; 27145612089449873535; 40134195791937856736; 57122249784938091792; 96183323098944306215; 75276744098996646312; 90464535819348505352; 59924336804798040177] 941;
SciE false 429 [7961176191; 19538650021017347286; 9846582560137441290; 5701772815328652539; 38196312261102306128; 24742573361238156330; 93355914591418781829; 25526709433678162341; 69461771021324658107; 35524308659911022156; 22237179233650873672; 60054757794410498358; 73801339924463885711; 70724227547719971661; 62486385139681157816; 92246951060848945924; 66155751277980218176; 42536865532879956616; 23849765797277879775; 38023888833601326122; 39263790769187541534; 84888375480918317429] 942;
SciE false 424 [17620; 63904841116496705652; 85281535494096573857; 18334427691866766396; 32216763011977294854; 10008095645976019172; 17039104022253212628; 87303861464351538184; 74132388709061170722; 93847694165875462834; 52751769864609433158; 99031023622489897390; 9042588760042237302; 3238339478612643921; 50228054803318242325; 15162347749756967869; 52748723631965640002; 11830423270100846173; 92588787649754630881; 71479913878162121284; 21014623672280450790; 616148818150028896] 944;
SciE false 425 [613010; 56672204476051618335; 74102958186857130582; 97933439036506780306; 24553241116044104877; 57187505178148815338; 3748188405423539246; 20085265556626393218; 50031048556368641998; 67426635371766813148; 70602912262800991117; 27279024216350169608; 37362282703174183719; 19980145765521174437; 81794511451655755449; 15190303015231685368; 83619893992848404476; 79958475338646031756; 65945036431966390396; 74270427839440187302; 11142423311889227440; 69818336404912030710] 945;
SciE false 427 [13585512; 70632500818960058349; 52063865948458443888; 35843750429276891564; 39124282234494332511; 16241743047510781743; 37149201157226936861; 11277189015035940435; 56071694686162627385; 56572201889981845420; 71614565613872965581; 52919212939710887759; 71835933992564959866; 96759738010348463478; 25830253358364832691; 90170115062622227405; 69265920245508441633; 21256341247752400096; 85955277960820409802; 11013600062995510126; 2274851328227559094; 75050738793672279532] 947;
SciE false 428 [473244157; 50941855511849355192; 7483720253704810060; 4614936183234396421; 55102141586048965485; 48753997530885440964; 93601448986972298067; 5825009715575564682; 23969485516591622976; 53362507003979750801; 5448266882365142534; 59406695022330937664; 43682246850469831222; 24672530982346665995; 45362840678243206745; 26913927758861104741; 54558162478968256089; 27942961434736516141; 9568125478053386285; 36770292047824597230; 1950796778483584218; 99755704592087708461] 948;
SciE false 429 [1050160132; 19892313305612510417; 94536837815837712570; 10721908183103717927; 44307016726411903112; 85486737572583428762; 61633249453642219364; 1726710862278195668; 84341999240371096904; 23031206095596651021; 35805921952380239452; 20655160239651623826; 22917697625271397716; 59527748199936226869; 36678584601601567084; 149894340698178460; 4255634977802538247; 33115178451260527487; 24342986371417677703; 11351284869552932741; 55846007671990318024; 21422108750867207841] 950;
SciE false 429 [3662909779; 12289961661714009186; 65923994763675229864; 75719606058234228302; 80490575876018992857; 67355940889053313068; 60475215159165587039; 3085575198554870640; 53523817898419161838; 37025804210803271200; 16169585669506203217; 75807819472841457522; 74100590622636493660; 18965389803363194804; 81108386849602420208; 38313800853584950699; 56280177587214302131; 2278521504860634932; 8057291200133209848; 74602060450162382560; 35099167065462941855; 4109153542758863490] 951;
SciE false 424 [81387; 41024541654281184969; 55739076604930727422; 72418330947884190538; 13937683793796296922; 49124625222161875215; 72910276576832657272; 71133820091826560; 16433536504941128760; 1007784918472408740; 45415524958951309468; 55754600774918573000; 84653276121565958533; 32303613400485495057; 58237592590306624121; 44901011616811404108; 83065329811710779696; 71416816426329972690; 88026136581443784870; 2199129724577390352; 28747078065594579249; 64687660213428192208] 952;
SciE false 426 [2842417; 98859937010249490071; 12884757019936611978; 37505158414301189761; 16297660686879790738; 45755468210129905370; 94123728766963512495; 54228794406354078579; 61705534482689173269; 58657532024067583338; 45132547598479536813; 69698026867910924971; 3764702058323165919; 8030717142487409839; 16853340108195291478; 8170531509462381921; 74286073417807678298; 45367368132687771852; 70729452457971303370; 84262691198909326008; 86683236953642799242; 87951188703149180878] 954;
SciE false 427 [63238017; 76068865376480721346; 9262522031175207456; 69043146506016048134; 29580307779722708775; 69833797619777042621; 51284900198974700344; 55270978211349237247; 68857864339257046527; 83048881653061591332; 87862893105167457069; 21324802111731221657; 75595546456749780391; 99907612177229659741; 50609442668246942365; 88086026262460992561; 41761263699275824346; 90866363258388780813; 96308123781820844007; 8723795996632303727; 36479656966988076975; 62311985833705346088] 955;
SciE false 429 [2211401195; 13030993974103275338; 24340961510684119175; 79013246326325634184; 79580014392477194519; 97754267481066378592; 28260980697612721531; 90002048143473134942; 6905827532176803738; 35559914724579837315; 13122031617079641056; 25064903234699627467; 28938201375423085044; 47897936855204854873; 11898604175936769947; 56673514361733135115; 94565119054373716196; 95812407231086501406; 27514012301674022515; 56373752751455634898; 39558349934097810960; 26024811050062723137] 957;
SciE false 429 [4926241583; 55764612827848192860; 61550466228548660876; 18461112818650149661; 64305976040399013626; 90052834580631620215; 85093725500129156840; 65609202664105581594; 94027632028123924517; 99507880773497964831; 24519372892544905691; 71202084503862167139; 18893068980807892536; 72802988606190493863; 32475583856436810302; 11901445845711320534; 43202442173586716624; 18489697828486025407; 72402842603843748152; 9583708137656460361; 71765277728371196401; 4103696445646460270] 958;
SciE false 424 [17248; 92932201641752998005; 54763829859499783336; 12957116303321345339; 94664140724112261322; 11725582483286352317; 75301980435649441379; 22794882015975519090; 45254813865454750979; 6915917367334851722; 73105802351846613221; 20023875506245230657; 9424485717970728300; 6334693603907470597; 86801032809112572306; 80559102053412021518; 45390437607928624114; 98633627336776402474; 71096894609295953057; 37562139715271461353; 95220748555129485962; 92549002993526190489] 960;
SciE false 425 [384739; 46767585216261854943; 86241407091412449650; 41443001812911136576; 68857432296728755162; 96426093126380747329; 53885795819961560087; 14925524078728066645; 92256483558061396478; 50485541565488410191; 5332024963022907757; 13452270882799751635; 25357065548687401096; 40711845913410143477; 57072566343099187714; 88459549502920550054; 13373914110733757122; 56834884045400404758; 58434324662007360196; 73067868487605550969; 55425014868190585790; 43892130498692404988] 961;
SciE false 427 [13488662; 72981683850844440338; 25314950128830568853; 32464949197292055838; 27358046255788353895; 69405501929927512482; 86148700677863158556; 25597736492855928733; 89264442785615265632; 8247381255854047175; 68737439144051538978; 58670645883770373847; 69947831453109530649; 53730398255642007532; 78407656726031543921; 97217805768200827430; 95322209400184057919; 31496577359146735223; 97771584469435290867; 73593257342282778790; 62625370111258023007; 73320340937480962586] 963;
SciE false 428 [301251003; 19019224333032421044; 27021752575948076274; 49870419509419939547; 15369488338615292601; 1630917956125159028; 92578127029901548237; 86685353644076183757; 36826625962073442669; 30179045777425179594; 74975546046936773836; 33128101232205530403; 54582324622235058486; 77375350200142342937; 87819446646663980754; 63827260786790692386; 71774748704531826971; 1714207548516925971; 54076210351763034040; 12141025795146409160; 97786641793228673913; 67538180476153106032] 964;
SciE false 429 [1057511158; 1764013906204122519; 4692090100316598100; 65252017067697177720; 64870826453806945422; 41391351306316978656; 34058133144471630810; 46862541039904812737; 18332314392236825555; 26594690458957298573; 89015228893640655921; 19778637287597309659; 63909985923787202923; 72463223242333390570; 27160287320873043482; 61875972226944870586; 73261216974430140874; 29331664957104041559; 85292222403726804030; 49711375634969857185; 9829016722629003806; 28314729498507466746] 966;
SciE false 429 [2364820375; 4300911014304505197; 52120757721192398754; 81482793148946525445; 15650483458130046917; 97802705955582498377; 6738297184727153667; 25480026105998042495; 34089013802276524954; 1905509352787659818; 78558036468453674615; 20055594672813413667; 83471248284545209121; 17396499071117392062; 34382656176312248923; 91043997176306935235; 73431777330574841722; 48456529255857868876; 59498251261339817214; 95307052491899311913; 67625138076845090222; 35174716737801882354] 967;
SciE false 424 [83120; 37702018651493027644; 2999708798281884884; 61071128808541520998; 16884298846959269225; 91020173360212676514; 52238836969265155470; 18170283395725736518; 28114260919911229814; 48864390342670074043; 66790776596991040155; 55540614600890805148; 53924763324893609674; 14980475609346847404; 49882334798583420621; 21773383451417037866; 82811718331654190209; 7271945468865628377; 66660443968680932926; 79679707314124908630; 77474872560714398639; 69917385537738582686] 968;
SciE false 426 [1861113; 63515884816968257645; 59044919036326578417; 82003926958208220915; 52533816930481548346; 92444870729587043426; 22275203039884380269; 93612952780545420459; 44383328053862391625; 13881299635860643888; 27738425174700673041; 92216283753007504156; 55658591872399937079; 57836391044768969387; 55306459150410757739; 90311751625777753558; 3052290808759162400; 43559535288524360142; 80588025123742674436; 14816806650311124758; 47606320983666477086; 499082502072650081] 970;
SciE false 427 [65498857; 9190697376505783495; 63770533046125289073; 24049501130718546557; 4827491403904150017; 23896607847589093443; 64203531780942510503; 18183315831880376405; 54037604890049093817; 5139590024018346410; 31131958428939642577; 66004305501954457048; 92713500016164423230; 4614780165315754745; 7279821283735449519; 57426159716625839060; 55634045343501884749; 30293029466115161601; 28429847320575146315; 87609363530428001050; 50199577842946128082; 94899803738003157266] 971;
SciE false 429 [1468418658; 14033120587955282370; 86441119661670371660; 1098370026286302349; 49181558149941645723; 39003005644177263289; 75135198468776032979; 60619743850336742501; 18445834497426992234; 52345412694048027850; 85617462838831030076; 58647881122920779523; 14628987323550355787; 32912534322716846779; 36796269674087856783; 55972032738647557286; 8257448110979133943; 68473342645720152673; 83951822632970130120; 90460447095477434437; 61387256112850420857; 93776094135320914234] 973;
SciE false 429 [5174409710; 26065092743956896155; 37872110643897836785; 99910589326765178006; 81371820908427851361; 87832019959538382047; 72079010694458329751; 36481950718549736037; 68970786313878411547; 6027611897449366414; 59424715886231763635; 14340134654402106865; 24366501276989435173; 64567633059944624860; 75105881415100512046; 36666617613441285783; 95089582136648895194; 93149327823097766501; 45957938325436558954; 21139718903812082989; 65766649592744118552; 97084495302249424042] 974;
SciE false 424 [11615; 19158589001983850726; 28355353749256523812; 63983068688106907924; 65158448026124966038; 41767201513774645442; 15262193319419888018; 42086868502173856163; 63318436906550874647; 50857508052214409919; 90030027234131055153; 44790579904739682303; 36602808715289729283; 31427777338146492690; 25802480058493122034; 94715795738778962702; 17813291316414557844; 94949454624140327646; 40765007058917026793; 72925635542136525226; 50640152573195852646; 82898628768904610388] 976;
SciE false 425 [409813; 24905264355345321386; 17550599471162996708; 67345112918674679802; 9813964648215947485; 82786076295980795439; 85817948657647001099; 71630809370496909139; 9418502486276059170; 19452717386862277989; 82003586437498189555; 67990335738664628646; 86372729826901137563; 26575273756538347614; 28897148385808075960; 55407223996114984549; 83408891094905222592; 49943857426763589343; 10691559868715374575; 46917354265737181916; 97278088718647745334; 18939529092027938154] 977;
SciE false 426 [9210846; 92761078573193625942; 85795523160423383423; 38573469668777984248; 70649284717098068465; 21390800423293835627; 2919302299971198607; 74886722223867937761; 11520466894843595474; 30003885406027066480; 93811596665926736684; 18929864458568066569; 26027311224755321668; 22227429150168703374; 61366686385045773713; 9626020851717422827; 25940013916744371044; 94917516943279823601; 26650597721202247427; 30028984914264504619; 57640990544311148935; 38612613741356038026] 978;
SciE false 428 [325391719; 74779898144185180623; 35175980103419386686; 72019657427695762865; 92287930683462303747; 32144579008751579247; 39451234171718873174; 74862640174545856440; 78290974103190981134; 45457605168648723917; 10847631373562507209; 84326576499715145609; 79947482559503225233; 767362691448005745; 44335818331612312679; 93335852915297732568; 26659529354746738444; 55422796850289938426; 89098535760007412922; 52379286995322442076; 38802442606309795346; 37986099070182894581] 980;
SciE false 429 [7322623307; 45057465688932624572; 7440912536589821591; 65908386678497477721; 66181350092964429845; 5686336518599323488; 20845328477102893160; 34944167975010520086; 58771181400658402068; 53088897791517852345; 80219349411755663930; 49242244561612922561; 91712423680480726236; 70806174384119182817; 86515676111390101911; 52686577115351147671; 22311063811774980734; 59425969907459763006; 87225188355786704703; 73043006840281172563; 24587482727363403631; 97027924378050230872] 981;
SciE false 429 [2590118089; 19247989227714037761; 88000801623218318026; 29276473124458272412; 74611928240359937828; 67870848909662570809; 26031824006882230470; 99906615789385017268; 63196153861400209830; 25842537142443842380; 18347145733557557390; 35239548937732559054; 381961173645672854; 74108207023926125733; 72913113919634008932; 26953389205769951243; 40209853663784038018; 65165462928307909878; 5224344649659006863; 28939124482766638928; 4867443146225970957; 18369348598655840865] 983;
SciE false 424 [58361; 30776038108001540793; 1783943304072916620; 87808552289841827624; 89744164465360240926; 50586510320102053236; 60820102137267962510; 5848798505018760833; 84509010406315763247; 46448619118515398397; 28319604348214811692; 64152602460689156054; 99281847948016733431; 38810656325209841429; 88705838529938607779; 11223486912019609348; 64693964819178579846; 59645471624980162454; 31116477184751195620; 3648873152764517040; 94532906962237337086; 32694680312557293060] 984;
SciE false 426 [2066914; 23517559895403715802; 13398024639695328217; 78498162625553317701; 38537140318735807230; 38728560937429910731; 50578973395557492019; 91585725479399929243; 78036830530781397367; 44454622344639670186; 21938641022295378930; 79750121160052310582; 12509504805016569246; 93808338349205093048; 33551584664907867939; 12795108804586204421; 9223487463223699662; 33888402039416789712; 8268569027030427887; 47690493421337247777; 86458284219630688324; 82383258740181727361] 986;
SciE false 427 [46630684; 90054448293231093621; 25370699954260380081; 59033279583620272293; 5587407822832500278; 18621745761540536049; 95261607677102045536; 73190005509989906242; 22699314646294834724; 12446675693803319429; 27363874223634542420; 57929366090635687939; 26196510465370011679; 9714403842663302479; 75964985420947615510; 67566042703667869568; 90477890523685297430; 56731828359149800994; 62065270616205300409; 15449649058849115715; 31792662827632331975; 23049569733277155211] 987;
SciE false 429 [1653531388; 14047916322972641707; 18419711756262574227; 98530100442654161108; 29712254988645784309; 82848749943928585204; 63178716445993615932; 68580383519943395024; 29464424625117893955; 63697875711736148975; 50912817836303144638; 96928041848465700; 7603844013255397550; 46670679364074438668; 41267731926294351302; 36087043668963536873; 78789970578959729871; 10721631533431769666; 14855221624342309981; 52394737069798222291; 66627375704550659859; 6606992145381888808] 989;
SciE false 429 [3735117860; 53361308287810599062; 42193066336256444535; 38565694647983810673; 77551366608883272282; 71601835499396937601; 20454774935873847492; 22519441350191490002; 38215103168216261402; 36978723073645886284; 81846325313126847888; 40142223859918603934; 88340488276137935495; 68123747797330528628; 74795332217904002405; 12040020563796352469; 27279030947192324188; 44219451567899059669; 11428176358044562773; 27516889613814168796; 96592292493349791215; 96270535635500132458] 990;
SciE false 424 [13261; 32173288664288910240; 58649161726088285225; 84530844211405550086; 37208854292285008939; 19016482446974550307; 25334114693305896868; 79978014014675829946; 2809484304685493445; 50952420856963208123; 91478358320799047151; 21999676777362895624; 69491460982828986308; 28835474298848499876; 99812066967210048880; 69744493418090225087; 56572777895564043257; 3356627987484898122; 79272251138877427225; 32605182205791299781; 74277916351553150496; 29206970988077005962] 992;
SciE false 425 [299929; 96420084913055511191; 10471248103226801392; 49619146825280233099; 99710417374738693326; 76430209627390601574; 8937672518427350669; 95362568311140420376; 64719128672784407765; 79061029391462813764; 66867092259922644085; 88543863420575951463; 89597113741208573876; 22030320336948125641; 44888846065177097691; 39313116813651272847; 10328260506185059543; 63233190821960902294; 49142987682561550978; 39069399606235989277; 75439636361087215988; 23464180524011530660] 993;
SciE false 427 [10662102; 67324086088283833431; 53926027774981321579; 62798745970062269443; 15918850997147187108; 89251887367538447031; 68628213417941082515; 2323267799367276606; 58825380967136730189; 65746368998419331627; 48600089922433909580; 87740128999768082254; 71134630194504991863; 83721336274193901106; 48901841636879300080; 74572708144540970402; 84513428033490778654; 98728901937858090725; 34889915657451489162; 14566493456205024521; 19444746648732999018; 82404674413912794049] 995;
SciE false 428 [241443621; 18168355009686508839; 29354723097575120959; 43413194350587645497; 66885986664648128045; 26318750049434267141; 94826377334017289312; 66867490468038403200; 98898581591448251461; 44128660127565080558; 28009269237728489137; 77810053563640928436; 25676561672901970357; 34407871243241141366; 35521082467563641571; 47059034989274641918; 14249707478972932624; 2718611678526347065; 60105084462048537604; 50866683019971368592; 28907270675208870528; 88665321829282181812] 996;
SciE false 429 [8593654754; 63213387156769745820; 64378386634945193180; 15789251870189171186; 30593903700632809767; 37021218235988307539; 14340014860512507108; 72553846290024944910; 13257059512204532863; 91573412725981291753; 71672477481731122187; 18543973813074297297; 34511936771023442252; 79397037000284291830; 14884359324715865081; 5602764500022144693; 17822994993567595919; 75494961913621124631; 21272019905900264689; 40593725701249764082; 72465798878797209172; 18167577613712003966] 997;
SciE false 429 [1948450022; 93618624928170126333; 9892615397431226142; 63344478409242299166; 18769912383710393325; 27392312898934535835; 52248865085519524753; 23620648077069913831; 98111553442987389293; 83118287229450200105; 32034802748468907341; 86927132258582292480; 59209852700318900783; 76671520932956010826; 48655135513238587481; 76766412363446360279; 40995139355311566275; 89939196245707620819; 40048031608731698468; 38494131971168944539; 77281674348935585168; 11529147162307207225] 999;
SciE false 424 [69436; 73041742764168226699; 54623080177364010357; 16089567577155111128; 50318535198741901113; 10292035131443346785; 52491627867320072941; 5743850235078023401; 55487387117040858612; 62554043913174825928; 83737003113618052387; 46727245835308409640; 32216254856449109869; 41340257528058962297; 7798760265623343704; 18985493270337160178; 92912088009799548026; 17503161999292262058; 68702019877920839674; 13869039997303666098; 9378841523654940681; 45011122794027118792] 1000;
SciE false 426 [1576296; 6855537467566889632; 20347703125856521861; 94939045683033077020; 2544584859118421708; 20014660381135238039; 49093769331854185295; 52536809104294349560; 29007272246735376797; 93870942694368625211; 88520416155423511346; 3957224049997193074; 61679900770834557990; 73406727260434761412; 75862762004630210017; 27275004027602028105; 46604265067738447057; 11720260809762777465; 24289498857571463944; 6092341752764675676; 13267620874548288888; 40100527080054306530] 1002;
SciE false 427 [56243751; 63811638976263626632; 44694943664848389300; 32549737495640014087; 58013510980939901613; 36548456469110896275; 18218572529259082256; 52518690413198955259; 44783564803095476226; 68775569671609002358; 26972522030622433848; 49069126599811808660; 95166433723778994224; 85608597727759460633; 16995815154908400393; 78249548973099744932; 58791287937633901201; 77561219426732267536; 48636101115880136052; 33922397815969539455; 96861634160501951974; 59009463161966222323] 1003;
SciE false 429 [1278376111; 59840886196747491717; 1987235069639230040; 95566048939825463240; 63658320745040005350; 31889569100678050027; 15046928133744274671; 7352183582717493395; 24897792102390583128; 29334525132955046838; 90057502048467701638; 9308704547723583514; 22399525146826530485; 32855808212591505747; 24699985755100324008; 20028266385244793532; 96058969935880563322; 5131516717612524311; 98783573490457258633; 40889161492151973343; 60040529258662288493; 21527461924042596353] 1005;
SciE false 429 [4566992633; 1505084872606482554; 69229425585689211186; 43038684645969143911; 50697091652320011005; 27734665291804777544; 79348089375837479229; 84517661551755167067; 16425462011352669607; 4576257334650991491; 50168788886541628497; 44413079904718863269; 27514418370854331058; 31418135494068203413; 40060190578562111975; 13863376615699288526; 13852580535872777584; 17971017450660123962; 69251410609467047449; 94498702656726603824; 65164693832758500336; 71568408751657252673] 1006;
SciE false 424 [10393; 19778729506404779557; 10765937156221116166; 94023296951977880781; 1614637542147657175; 24349809262196788512; 54672073331525727340; 95307582773252527493; 22130337419049792435; 44083302489689330924; 53080026167491654042; 41431769679767972992; 73397064108139443699; 69284572117720768368; 94172511810884188965; 63418666829805712040; 17142296959425578708; 97980827719230914189; 82265646110452477417; 51268961428882931195; 54328347129502872924; 40544984018265442466] 1008;
SciE false 425 [371753; 20032742513908630167; 67995195275242675101; 79057543348930181888; 31439666743260498848; 89582957601754752908; 89214618934475193170; 80930939737650312870; 59926717032607724107; 30601352507347040590; 70740823739415364488; 55969195224704244115; 47011899673655387542; 54814677436229217151; 75785080899513094955; 91477628478856517922; 8602767600055620044; 9535222840820483734; 9056317064823610617; 66242552194396257545; 55132664406077986541; 92740865668472384900] 1009;
SciE false 426 [8470456; 19664547719895339042; 74238782320209676056; 28987015861972836528; 15929596850340597823; 45094548690382637725; 57739765193467782876; 75679960200809906975; 36224996525580834884; 27891529096804703492; 60221326505698044567; 66892289010897989078; 18607248133646615249; 66926275942426220687; 50597125870614006991; 86213466291655312739; 70972021931846647818; 54374591173195064705; 46501580018769095272; 84203564539588924367; 77602910544841433390; 44161974886335610041] 1010;
SciE false 428 [303350611; 46717891349442216826; 84079344598022883061; 10955372727028420864; 54768062500567060698; 99693403031878373655; 99129050531757627380; 39646825922655302409; 201098607902871561; 70703645995185122017; 24512171362937422664; 70863303358663198223; 61710133702796234719; 28776787963041195834; 40626014002685484026; 45744838746918624422; 19858361645385955981; 80741838109514727017; 89954724896066264012; 53922590627346157169; 88254155359637018212; 76546385473466078699] 1012;
SciE false 429 [6920362712; 65935487154491997920; 53085155611305337988; 82391959231807443506; 14480626728268421759; 42246280042615021796; 73388163063178610310; 30527484061693998870; 95822161399542100455; 87379272089442753456; 823755155302411785; 51000121903657076878; 2121725189284658979; 78767444962222301692; 37851836291643712351; 36401960282390508342; 84141918318711267750; 24040988500367864364; 91790875334350837911; 94312228844151208473; 1577915135451079990; 80333482136193403746] 1013;
SciE false 429 [2481408001; 80152351238437333643; 55769038811827183439; 87614948907092482672; 2751254638556517; 79492036800765096506; 875633349777391971; 64311036047320373705; 63644986612645489374; 76355824240614298101; 6509561748828117397; 31661821473864961469; 18788893688873200003; 77394125537676981925; 44320794541967259336; 42192780949794347773; 58441398259257119931; 18468235735830467006; 41829649649822039622; 57086791331691565649; 63918990841830808980; 42149433172952523766] 1015;
SciE false 424 [56677; 77061668011639795289; 46296914767424456590; 71812846790146108502; 96231532596332904518; 37420966997033549017; 2851525049055487432; 81844140020094465273; 85075314783501862249; 80273360636238412536; 15080470746554721926; 75252332690998390951; 45963099376929300241; 35704446105374240600; 65086058006539228562; 415767132054712778; 26332787122311030245; 28287446895695818012; 80914867767268988333; 36249881417154233598; 39739399923124959344; 34512467931218695423] 1016;
SciE false 426 [2034754; 56147724928015518613; 58771730611825698290; 42069844258103815835; 79104002256028803616; 34459183470176627379; 13492718019346817461; 41674735049558802706; 43862188889022369301; 28730611775877303724; 44287337840634039056; 26579962693608569268; 40473406892824876024; 309463182940895125; 17886343051524413152; 65586598080378831365; 17433921946572590838; 34357143953303380982; 94526300312712854072; 49050811168891987083; 83270413572490301263; 36394562535201821069] 1018;
SciE false 427 [46532449; 67629437556271932649; 9767024055478860979; 58347214709955080932; 6088261589314609585; 22613904564543742980; 41102065274555182343; 94038956497555989831; 46833437255028907088; 4429082351736692179; 81066482921426701863; 82165139309678971148; 35704588458955498154; 13350252512251533134; 35653623368706649405; 41344815416919190954; 19218227417355831377; 23993901366266588516; 31106436927839421690; 61152643483625784284; 26047336885591621707; 34736171530548943084] 1019;
SciE false 429 [1672568249; 53429890828756300369; 10362562920723994725; 81411980161336617020; 23489854455676572635; 25448812485187705648; 91014211903083953284; 56632210737335824692; 54719266776387565658; 16562879771143661492; 4191705001180104250; 48729334146243938628; 69140465902048091730; 54378736377415792897; 2573988353067611483; 12183622071399382173; 30683840082669669118; 41572329615379167981; 618857049966047587; 19766780829213382910; 48279956587027638485; 16330403935896919118] 1021;
SciE false 429 [3829620608; 35902710881180057020; 73826079765910258619; 71975770629303160708; 61063928800592368864; 11124345661950047287; 82699972095891506906; 29406119748857963129; 84391886088879053346; 4513477547929766398; 41771544433417563392; 52190965186579325509; 78487630172037498085; 18725781758301176957; 54293203244557246065; 52678308812449415530; 1660116448384922346; 84698082443740234892; 40059759161184405137; 32862558702402046594; 63695825684190466514; 68786916964178015884] 1022;
SciE false 424 [13781; 96237616262300428951; 91504141387518466765; 71654070834716529413; 72424673556400714774; 95851449698214877946; 69454701957106081411; 77506482649416475647; 19546658886758237433; 54102328478129314223; 77069442539649209724; 5902401529713365050; 5430041717439032876; 27585968080787749906; 13347149209664029277; 11862092393045868330; 90910804834842281198; 7353574555996030724; 34416349099382091720; 23211850878274032718; 27518237826842277107; 74111774562528431790] 1024;
SciE false 425 [315943; 70018961973647697354; 70421090651580687596; 33612688001076917510; 75846037774126048870; 43128917758517110878; 90124572747697911049; 31976926004879280781; 95821212330602332521; 90104872361897704205; 72786946152415756948; 97988305754627892794; 35455725229489193093; 59202794876995059847; 9899729189267675972; 80040595960477027076; 78122636959606991756; 9361487591801608569; 37862304930130797713; 42382961161092948168; 84405754905618945713; 48746174920649544686] 1025;
SciE false 427 [11383900; 92271032660154314281; 82420786090253548481; 86262509475853295736; 22780357586990404115; 73297450725489183969; 69583816569623246126; 20354668418008884583; 45540240462304120104; 88523322934813548834; 59359537750247232072; 75383663543239531344; 85214458604641155803; 86009634730681422466; 24745247182488182899; 98088316655887241330; 92324793579724269608; 74052583252721378308; 27904356089607760911; 72988825454351025295; 30064444971720890994; 16325788648484659046] 1027;
SciE false 428 [261285440; 5681552206645712340; 38241968857228642169; 97692976890610781397; 24673239202242415846; 67614986293650696851; 33021662346172437787; 44917806035165206679; 44142597408128995612; 16729443289401378136; 94804468047830996806; 36328859077267340931; 21884764787562688400; 60711363274914493550; 87076039524368029505; 93572859314501392498; 7420765594982182289; 41950238419930286876; 12126177218169709001; 50708880223868135634; 3559306946868105054; 13086659377173455578] 1028;
SciE false 429 [9425869964; 415042607772225350; 44410882729938142982; 25357846006528869596; 62136082028054607826; 90289200705044326908; 15400119648047792496; 53665450111356435101; 7319102787811446844; 97311390025618435043; 49697257204708156240; 17673413802331953537; 57571724642877005596; 15977557004217802052; 89064667100215441184; 17126191074635822004; 44929084011695236037; 15538933253301239255; 4806842195226034912; 34747476202648944508; 93360436584897743167; 17753000945297690737] 1029;
SciE false 429 [2166056298; 7100067793092955301; 77025921826425443589; 10874778423163377783; 17541152986589627368; 94528236374364276897; 52749580849769509257; 95368612031519563372; 56942132513389373624; 86687084869137424755; 29929040116518963524; 75166241750546256319; 80424700088894686841; 3297201549041151536; 71860367657010964604; 20719003717216543809; 3518146782402291179; 28767476501222078203; 4526009138626887622; 49376617055866844406; 15506654589536590898; 74488406236767946748] 1031;
SciE false 424 [78234; 72070123444853644509; 47040868610326658486; 58675270470121854189; 61765195729480832853; 24496329400365851867; 91333767820993078796; 67772125423235924258; 41133890748553138835; 881327684537212633; 1086102487234799077; 69679346689334559355; 21436187845314535879; 14644812613723135007; 75703899236736931788; 16182862147385919477; 32263692911397297070; 45910838973146002400; 28581689896790220376; 8977248404052481986; 23942414891623654651; 26828757349907845970] 1032;
SciE false 426 [1799992; 78369700156336060245; 85577108541037759543; 62254936940869648766; 93781876698131855980; 34359352964427096714; 10184534901686158462; 19335951316598192757; 16260518912118626569; 48226436967526253199; 97165371032336827258; 68906863146894703939; 175732925773871484; 76489839974487253196; 92701315965522976111; 58609617492089006947; 90530823579976176303; 96998805772972515546; 98673061113594198943; 61429231968773425347; 70151486029963904907; 3685699865582754163] 1034;
SciE false 427 [65091287; 62342706118232231879; 38002683791779860840; 17825031141382685761; 88642846928052933899; 80946061104388754103; 89694827066241558835; 86408352132288982998; 23397102796211510727; 33264633534960910665; 3637269379352832643; 73216445526353383538; 34908287301693851449; 84484094617648326453; 85644164965127247750; 64141306625085005132; 43392502282551162621; 97818025657473997037; 79965994129463352906; 69070672171665012551; 20089189830880669855; 21526115123327847733] 1035;
SciE false 429 [1499393988; 81960230227938184797; 85731414684453699837; 58362471744417422859; 20303289543836031626; 21341019367771562846; 83717573104569999007; 6847446726294566716; 45012253794815932378; 72621993949368915576; 38754069936577106487; 99417001363288381188; 46385527169634946809; 16036698747881913040; 20196199280639100951; 21811370910142787605; 12176042120154861207; 5208886105450639; 94659907623967720030; 70550229988263314635; 36187862959932787561; 70187988030434218401] 1037;
SciE false 429 [5428613387; 79381690260568138740; 29423828234440394070; 86607597191315992541; 32813433799614687244; 10901496106022092265; 548577324546006911; 6456567832901182052; 71318373204039994659; 54270436815739949464; 3348266238026242487; 26251556897872187098; 31351160961267210917; 5973491111870426251; 62723358091612462403; 49384972532089428044; 98934690364766962672; 98023339833331352952; 49163910397243632418; 494059116862046770; 15438431895447865924; 95278001285542500945] 1038;
SciE false 424 [12519; 93980664367922403283; 84306210857312615188; 39364382326639065885; 48087434532467691030; 86407888197511720892; 54977109041735423159; 49170902176180164559; 63208235852319186713; 3536236393649477230; 44506283596483970418; 83917475131961383457; 98292367319151866451; 80585648906434544813; 97388568638263993336; 49294267124947099692; 27650276669951703293; 9107845043494198980; 51284355410228660130; 46225639094420401998; 67720527168655715438; 77614021069700054125] 1040;
SciE false 425 [453832; 7921956309305783496; 39868859832040399216; 94432440395125194016; 97645503203065647787; 85360751365074463446; 91335445861064332046; 17776499769070830538; 81960682215999857743; 55353777008517795859; 77519319915057498993; 87193514630156662114; 84141900957056361938; 83266619383856952367; 63463603672736458801; 85693208583703682676; 18456110940114494518; 7946114751210066501; 10682830102909209567; 67014521303342169667; 10998490652906459441; 59132605240907471353] 1041;
SciE false 427 [10479189; 61816075951051548576; 64298487570658912685; 47988007396898146147; 49182703675457392833; 23402421317310387064; 15840267932549184494; 56045121462797736412; 5293408391159278810; 59829861484612441882; 51759370257083240568; 38926685451677954331; 70711446130112220161; 50188134685714009296; 14231950226962422644; 59301583580722442435; 43281572749575656317; 23266301404644546689; 25005478361388529196; 90859922029876472892; 82081240164833822255; 62935635338945303230] 1043;
SciE false 428 [380311282; 38599387198246569982; 10104539249854543799; 34385051114912586226; 26931684169012846221; 32309643932400368513; 39103631571910254696; 96706806481355991530; 83051697007880789097; 86465133137912930491; 61190088818184156864; 68165260071282852237; 10913002013231304741; 77427043672126084077; 82499877753152475956; 10908793143686082642; 66220967815946406150; 58844161514035727927; 52211626237917617707; 58168852200738181038; 16735167135613012053; 53123191880460993880] 1044;
SciE false 429 [8792040089; 63687722932249255803; 46431071782827743117; 61938205997544617745; 64288383708752587083; 34631485223414746828; 89984795408765790936; 21856907287300849712; 41169640182634922091; 97253785589838739432; 26111645692838836878; 59489093957803684302; 26903303164152715500; 7845001314053799463; 40606240421472598813; 54028624226129203328; 13239536893975650158; 20426878496774672280; 79596345204975996206; 31474583066360757076; 66160498295576872473; 2998049375109410554] 1045;
SciE false 429 [3194614772; 4234852465271187849; 64878129698778167914; 48834429365265724300; 66226147019707908259; 11401009032163095512; 48470505204046139454; 52337174443390328858; 97634254866198628422; 6307118358468616129; 53996746072746917663; 32588184598775958791; 71669216911142959830; 90387166845859106253; 72998973126480798031; 31633862406963094198; 36256129653949811664; 94290956717900114591; 18577660398507988743; 68618358486200720720; 60575403939149301249; 66234811795872348594] 1047;
SciE false 424 [73941; 5715384613749860216; 24130713485313693581; 31961917900312439350; 23524085665306990609; 25737094250790728918; 2083104772129387720; 30177359816590286200; 14608138236673935959; 69479348904336810543; 79862531598940276774; 61814898303280185128; 98498208256779610524; 33735565976461051192; 45348724498481944584; 55602187380729741746; 59998959344505278335; 21783049790048157874; 99388149405263173848; 12809510701243588093; 96701472409790665801; 49749818213595244670] 1048;
SciE false 426 [2689865; 63805965745775758340; 16940427385206371217; 38399918589525553739; 86115762415790594058; 75417399649605081326; 42151212165381806849; 42070867900881334656; 89925808042597339245; 13137710593657830574; 78107265260193252904; 67252039251432169357; 30262545480639182372; 17762105994484213367; 46564065135372496831; 94236835712146662925; 31502127661168625741; 42188192985556471896; 48577842390055543726; 52218376657845381006; 84675004490116763711; 65221569711532124517] 1050;
SciE false 427 [62332311; 18069229391132162291; 42191468119443689052; 43896789963386372248; 30804215853793083603; 96370453416584477891; 56057322905073848214; 39514325385611266723; 14660533516128014022; 71091126355931288422; 24114137906653321003; 9959269665196063734; 33989560465211672016; 39082118156666155238; 28974752220279284780; 72643961955172292383; 79122727417949636588; 63110973010597088619; 84209948636855553971; 98417521148344763214; 19341241453531270662; 39096754060791256930] 1051;
SciE false 429 [2270246598; 52235089434740039102; 97720713114177307472; 9531289559567356442; 81703478927261385588; 52285304266688639499; 75623067582244980911; 7812508343846450422; 97381987952154322890; 88227741047209005115; 22531879603105451543; 60721128208750937563; 41588385659469922117; 91217459344676082141; 70974254387326159; 35889341051783508965; 87795746026320125760; 6834879809662280633; 99698977206878905184; 72309899221501569778; 65703789658548572634; 47004836533113092783] 1053;
SciE false 429 [5267080294; 76849883550667713625; 15179056092991724931; 9278751906148454982; 2956239645515564534; 93303313701388381836; 86843785478740174116; 38960495084152038105; 88815082112817184919; 7200177076193871679; 37644653112205624761; 91558286709067385551; 72117859310386285385; 2438984238290117635; 48366562613599563971; 38414785212058706430; 35870466816744291739; 32877219395453988376; 65740659814294310632; 66280537035132491599; 34334902823392370972; 3675718136861210614] 1054;
SciE false 424 [19206; 28622349908856617900; 73081118717232945940; 2121392634709673939; 83550623211431724631; 32207890333674096185; 89016793771151745792; 53850772093820588940; 97057835851618075225; 57165686406689259388; 18327480619701442272; 12005891700744646032; 93178649837742679115; 54111753699706055959; 65491286600442192116; 77930817623825298088; 48585132752011382668; 26393017823083189742; 89416361453347170195; 53786275741747413903; 28032743854060511320; 92448761660917070136] 1056;
SciE false 425 [446121; 70096689185136741555; 34405035666051076399; 10166355910286450774; 13697790393497975168; 31610882790670507595; 94158275668630049292; 74765819953933627677; 62756872637454955615; 56264539854998353620; 93124318502118603816; 41733424986884258007; 55623078382683589718; 37211156581964983172; 96372546647853371883; 6837623732307461372; 43465138228539378241; 51032114700482794952; 81550288233886270728; 11058653961486875722; 3846438166269141333; 82133151333326192144] 1057;
SciE false 427 [16286930; 71752722710411979819; 72788672213538157137; 98940954233803500980; 50928483294102487361; 12291002955633565634; 86241117936680432072; 65454735559859421943; 5044802172127791284; 76502072872491961179; 41703565506823046757; 80996162231459835926; 15495062405791889978; 86767137350735453787; 36611037174978915028; 85333345003852779036; 192573705652502687; 81279113974544901974; 25074512438400325816; 10761829001806989981; 71766788243313600143; 96549888457675475976] 1059;
SciE false 428 [378757324; 12089118181093580487; 9875280477363862837; 31236167833196707242; 29424044079780917900; 37639489279260948954; 40376042666911849542; 76181140889649898305; 80584869199257317612; 68594336893602224170; 62546408298694640138; 31677813864735048415; 23993546898367670897; 92271938088270713846; 20292104027512728725; 5142548729034705197; 1902356029932127042; 26265380709892914940; 36194710569443848165; 88797213302357488010; 65626003162500992414; 31045481993937130713] 1060;
SciE false 429 [1384389110; 98981430385018284676; 87037138150743356729; 9981109873297583343; 28921079998711425695; 44735251228853078963; 30495024617836726175; 63652522588050865159; 28808184630862259205; 2676194161816700250; 44803068079958974413; 84673789674086053723; 17080304492310648203; 75206674812513571926; 11938159873207777452; 53334325327486218060; 16368764980462728464; 8724687836316667811; 31333557264027694369; 14755465153594148446; 177000681656012237; 6740518902415458018] 1062;
SciE false 429 [3223224828; 26878395721106369945; 21038636862366472745; 52819788260503978631; 92398615118935611332; 20312053766510675601; 97600123095419839608; 90301508970920634582; 40777236885679772883; 95737806964554927692; 2269934621891387577; 7578195988895262013; 69185084105108879341; 32234193131183774831; 18685805274133321450; 18763089684085341226; 63189049814722401129; 65518389841188706142; 48016986945967147891; 70664285203062222970; 68477286912883445445; 78197051768404982373] 1063;
SciE false 425 [117949; 95225633217868803557; 85446935564170443333; 99331930390561204954; 10084824076015890213; 46925211443404698282; 32767358176097439689; 7016423194924501933; 71157134457330549464; 48426828011742586782; 86133817221400412504; 62005974206880232131; 77721415241942744867; 22695967608694026156; 32810537131221197302; 63895584084517901825; 77872594618776335424; 46514023343403654180; 9752389619078895159; 56025137165631086221; 44759935080458077092; 24259814292210485797] 1065;
SciE false 426 [2749410; 77851327271550103733; 56326445957243598601; 25193555279386209893; 77303116018696452076; 46636926181862833606; 28848552905000393123; 18639427187152195301; 29879382983063484846; 27001564349340765353; 32129536254232473353; 60324564201178527658; 49767914876741657874; 7814795766740899759; 93100238991898835723; 19701004915500524796; 6631700259491958208; 16359587186534533966; 33953558489864909977; 15162576635278212076; 19399411125736689578; 96525202085158449449] 1066;
SciE false 428 [100729259; 22690768059958238407; 71682971801558607230; 29468553539269030802; 12439760917570242302; 74130572667612333107; 83323882387213494465; 92025408465524651389; 68192826560289242669; 56511122028169112563; 58279907075952278945; 53101972675718240537; 74088616619104116611; 82356337824698337504; 20198710062902496453; 66828808178288159215; 3195804434990452493; 22975935266720669803; 28540734693376466264; 45467139448947633116; 24984558711197836775; 17881405547754870657] 1068;
SciE false 429 [2350746215; 62884817175338692196; 59111293443276804070; 40489763875209459175; 94164195985466525378; 74571885492722733376; 65512733775336120324; 36710245015126982610; 46872450519279543560; 86337518686354377089; 70753497368764717330; 77502392007641148015; 51567219614117482336; 81650380563469294741; 704338073504543333; 44359202752948700636; 70103721865624267979; 87447044487026541220; 30292508834498030464; 64003023162871325145; 86496512504869590015; 29047782810474279719] 1069;
SciE false 429 [8622424589; 82329745932425207700; 56062386213416778913; 22508182961429036661; 84843534544012741114; 65577020347615714030; 52524332345475126282; 77374964648910158956; 77305953560759172514; 77352045611276035442; 68760045701515077737; 45528861041481390030; 61985582595312381972; 9702517794177690359; 69009581384453696434; 545980061466428806; 73560859635182733420; 46740058831289335161; 23086889753025512237; 31987136829917394750; 98678225678534827955; 30648314887816928301] 1070;
SciE false 424 [20145; 89506793922883192652; 59212478583784808882; 21088336997276410545; 6513781987159595448; 12249585081058672633; 82503793444128454630; 55117982606799779638; 24097171696900950225; 68831659912535142057; 1165879357472450313; 62752474195499505484; 63849296931072092986; 82362651743761428931; 85593043036177289933; 93636761158367592770; 36445652788896388399; 97658752421171253817; 45825799606800711648; 12108196505908505807; 25650006275112166732; 38643103939498685764] 1072;
SciE false 425 [739804; 2980683892201002082; 82070810152737111159; 63075471202098090611; 34558659575263876293; 18763746508345825428; 26381906587715241765; 83506198771966876491; 63849112850815513137; 176756805513447483; 84098259611921189993; 66987366376277359103; 26462718362986677802; 37320592476026740445; 83286141022082786127; 15403766845089273819; 59161791521756698678; 52747610297047724624; 95683360855140809588; 94996204496340006912; 46963466591763218288; 23856529625417374692] 1073;
SciE false 427 [17305323; 86335979756662488576; 63519103471150829819; 14881480660436658210; 95338726970092489937; 22393584629399792455; 70758568506342527643; 46347059241010709248; 99470487637916243866; 26395864867687026973; 1490368068834819406; 4375333934075211304; 46546063790927875681; 49517847891067452464; 24423968076292053251; 33977835037762189743; 6815745661997635579; 88868329786107029196; 64361862241811305736; 940798575406488433; 33355390321351223119; 94426284029371071771] 1075;
SciE false 428 [636231465; 63388147292861791225; 80896731353915597282; 44905233804357925757; 20447234726933612141; 36821997177409868306; 88439665435107918618; 15330943891513782809; 10237051701341297821; 52010852741564836103; 24503266252223394556; 9135083598528828807; 57937792168542910040; 95709529382996783416; 26081278991196069352; 47239486776775484848; 79140708710760863533; 62944855461043177462; 87690335421096246496; 96735866852405944723; 88581268916367727885; 16615477858942235505] 1076;
SciE false 429 [1489988384; 63527857048640266448; 28994808866086447428; 71295484863596271963; 8664392124963383594; 98087636591322130436; 42312748396091630102; 20481800651022066338; 44408985624588596885; 32683965107853022376; 58320690726677950860; 36716251723875693314; 47616092398890096176; 73486703420907657171; 42903651368745784940; 35491596751324536878; 16835701497996423428; 41563194583815213831; 1556339019953423870; 41002757342498654110; 1899106668340310627; 20103054928849279553] 1078;
SciE false 429 [5484315233; 76405829664468640366; 47329824270752448574; 71083115393565320027; 10255163346167736658; 59405615669273064805; 34349916050630258488; 48152736344848807814; 46243385665561987221; 50333550632288887209; 97218155094165661073; 50744420619318504321; 33423768492839884553; 5016143281432273048; 16820624904110117818; 31204376015804679396; 58192909086758643659; 88584654074192189729; 99890691329849644803; 85863172267739243519; 89570538059089814370; 13225419144082070057] 1079;
SciE false 425 [128585; 99759402454063297654; 99448742252005143260; 41309792800343728358; 27041437737040384340; 424684963037831099; 85666331590186582707; 67782027579396183204; 32500772495459401995; 91120370626188807715; 83109913075609712307; 15924968612523770472; 33303929268774024215; 30005221902505224330; 81389432585113122761; 24035262924799639307; 53258592921039277091; 34187226903692583252; 95361664312057421980; 48001638537958657633; 84969463892905477768; 80712744893640359692] 1081;
SciE false 426 [4738448; 36197214636830100905; 27663292968169930115; 56855015811700040436; 50341660461131088924; 47302526451938251927; 99181678327467744543; 33404803964201949369; 95169554285215045556; 95937888187746297598; 54941596486001359131; 16751043179415091187; 73363278135977813660; 25383533947795157483; 91361733019917151141; 79502160580877655242; 99864678673450959468; 12214137141120102051; 92671905557308990093; 11053385780839326706; 40118988944883053599; 61579426762140486908] 1082;
SciE false 428 [111226887; 91883122764752471570; 23162047984448920257; 32970772297325029903; 90843642539932454103; 67352493027723901376; 1376825511394042141; 31453856177698471741; 13168208572382726463; 19120591653318674193; 90074810402401145692; 75097849833061458568; 7898817489530946234; 54516945667019046154; 1859186122851188472; 90502429951688001015; 68682876698974684010; 71951271694084513804; 87839629929670013115; 21417335334238853279; 98586267363238270018; 16524332998911134293] 1084;
SciE false 429 [4103496281; 46787875494867383969; 56411710435159480082; 36443692932235018011; 95877959339523008593; 63987907378526169640; 91333431587066774527; 28560232998888154378; 16834010996229452326; 82211170588293720343; 79422556877177007591; 6403393373468968577; 32598865756786629779; 82140398790606381069; 19260795248252888794; 48871063040049440436; 82811731208530899393; 77442764210008376968; 53870212629585420633; 72232086206856927743; 43044426268724417267; 27783576013661662786] 1085;
SciE false 429 [9643371182; 56266743704039285139; 8149560251721386310; 48565958178080092668; 86143808212143770788; 49461145503662249300; 39370771837863453651; 97049330606457499956; 11683683225582384358; 67755296342729052611; 19486061888179331561; 50983580526428457852; 44827476342333038535; 6619189330551301553; 41191436851198040600; 86560676811349688060; 4805409801105103729; 38175255877127346882; 95695914902390137089; 6882973478508579374; 77429380392758010574; 92659671005595343289] 1086;
SciE false 424 [35618; 34772314118759295448; 89285581653646577184; 28711492331254651799; 95634380220687067059; 71459279415036045607; 15248312774186175739; 60289683902822430349; 18000250119215447271; 64619681592960706389; 49258413387793693896; 42589043581454481710; 64725118958154768907; 94648884978661502463; 38768059183702754835; 7473616200827187629; 14299166805826890048; 20673796203193342872; 71208691593445624801; 45110070974508275518; 13281297625620012527; 94187997161439798583] 1088;
SciE false 425 [838008; 95576469580027881013; 87858618196785874588; 47038120381765675160; 5292405896933635293; 68152018173544268249; 46420421320072710334; 12235623586829701156; 74618655312072303109; 20076907935252183154; 67191283338778082783; 91269520473147746632; 98737775507694148741; 4869725207552824908; 10499149535862369109; 72821522122814906287; 89241817590111716033; 51408327429735722366; 44412895975005017702; 91304008130395282395; 54766788613156130671; 11896112125410386235] 1089;
SciE false 427 [30987962; 51913283320587040536; 78456038672522150329; 78998328191547065962; 1910791997748341951; 69573091081359678222; 66032113541972893454; 52024995455514403786; 60217603717439126332; 19122985875814558858; 54819647380513689890; 52467915865399088263; 10853493594648949913; 44529931435507143147; 28211489821396706515; 2046094719653237354; 40275121069394341939; 86202696778208299259; 51561686297693577262; 45761747822199700775; 54728934289410899309; 43557530452624767412] 1091;
SciE false 428 [729905800; 47105004204284363088; 24856449400496766557; 70202852517903064406; 9685536229196340796; 60407829157057645283; 32186969783330701020; 57228144128669707525; 92848776814976008113; 86986811604651527719; 23607788075710104787; 95752332111687317332; 602467201603553453; 41530655778510494959; 44759245736123494573; 27545768971783376754; 29623120987304665190; 76653191299814181172; 83632394229370419237; 25791081574290966522; 1872882058989814544; 61513661232446410973] 1092;
SciE false 429 [2702150331; 66838305555189934807; 61366572243931508757; 68654218302904151888; 6621062203655418187; 86773542294563941015; 98000300860036309234; 16579603720856010191; 70975044160691816167; 7524368371029532465; 40273251580793758453; 75202263462800496543; 6424641453388432452; 43010021176222882443; 41912425792808109; 78419459553762297303; 91990557251186617155; 96875159059763695429; 76179045158879937286; 30424410095813907627; 72363070036630419782; 78216655468879718387] 1094;
SciE false 429 [6372077638; 11226686703402489760; 40996803266336772048; 73870902481293752265; 22554731280884055154; 35360348541113243323; 39992246208477019909; 59601698243286546701; 35569821594740550834; 8394865308607836988; 93095989900949214798; 86917859335030280308; 41259538669999021648; 31562624946396620995; 97748215276358107624; 69474563123668879065; 609846219169727115; 39182360047377801638; 86110801622403759941; 26156142143560137737; 22350260374981080974; 49014262559257167803] 1095;
SciE false 425 [236167; 93898781667905523600; 30218543438414119613; 86542180378679673822; 87501698680836599483; 54961964007596544888; 44479665226295167173; 42706609057365202815; 29075543218859644464; 73300237629795627981; 13747619882188161374; 48885792677826648763; 39786381513663026148; 99634239075850801879; 92551823663146014291; 42879513860764998824; 78436259974703753710; 33943166888901823346; 98056118048546886106; 51882299093442374135; 52666304532321201498; 68901516135687980087] 1097;
SciE false 426 [5575567; 93334823350865477178; 54035872202858044675; 54264637039671132033; 23207235389870773548; 26005940304973474087; 90797493215432417392; 42089651485962875728; 36368623593895397981; 97982345507145031857; 36531458991163330562; 94901053126918151495; 26986102096336249143; 94227617296828097043; 37148029688366813344; 17160790242733210269; 18188033615441773511; 22596784565041455576; 43400346951419603289; 94860386624375615120; 52007056477828108445; 85267887479739350021] 1098;
SciE false 428 [206883114; 55332741085238673864; 71444052050768781746; 10950011723394268838; 51488044412861147589; 46680470654573322277; 64186738234566443922; 10989534251917666194; 70175859721048551106; 11008163700970111476; 42915016796829364052; 23954385776144316736; 52870205968810906520; 79593430445302446814; 75397528915908519291; 62454142030138970511; 10163737840488250257; 34214194677997251954; 97159410527072229310; 48894005855519742721; 35682770313372512851; 57728134862670556551] 1100;
SciE false 429 [4889773077; 54640078709023485579; 89459921906505180450; 90086683791582793144; 52745436916668401824; 7209647461736775095; 29401549934230053153; 12624353189442013774; 95282891846264030196; 30517009766192938909; 38089535250240903706; 28223592307218861351; 66811538486890499237; 37620369318241107036; 78822036697695302838; 50013042877025406072; 50905480742435369345; 17380063541356540532; 62104276394992085284; 92559069577414460696; 10188531055251107012; 79937319731409969142] 1101;
SciE false 429 [1816433745; 77821466728395556532; 19278777005749903730; 84141102931401680402; 16065029944920875835; 51854532347153769597; 69559561699493377636; 12488110731837109189; 48144048350806278711; 64651677294517578763; 4793847476161816378; 66319507114547100946; 72200408406159759252; 58830319309755483033; 53990303881676799380; 46347367024620161087; 47237618239486837259; 46400629272815872164; 65059624427694173346; 9289371411463341093; 51294723351410662836; 84853024094247486518] 1103;
SciE false 424 [42981; 10535163286291852316; 43824727352713558180; 53616341861950528012; 75174039632390497515; 25203359372801188666; 25308763439623921882; 16721597968064535195; 30108183536619328660; 82542552244515844835; 93301345807014849617; 54357822085376380453; 79128116273423299767; 48829653683046307339; 33085336845702572741; 71195041614646889053; 31937735459175726006; 89654407770758528523; 99128173896589511980; 42965449594221585473; 10951873557187975657; 23064250649040439093] 1104;
SciE false 426 [1598461; 69628482890720988089; 74832965323765059915; 28314044170579633478; 75390137226351530370; 73525631988465495317; 24597212414295554172; 31978989537444016656; 8674366762548709525; 26624893476019175469; 31148218585779022398; 41322361166260801448; 83311536359397420588; 14227770680992584825; 6951511467415875583; 45480785682981665741; 75697569104050748416; 78832832553760077967; 50489252469496370872; 54456174646842087740; 16229139356549241383; 29642670661202937788] 1106;
SciE false 427 [37866353; 81478855223121890782; 9584797740644757052; 35997180378415179234; 28328916136028310937; 4159607437847214968; 97020590308675178189; 31727809864855507060; 25309695761628550187; 19988527418459300456; 98485655980082513055; 89241257216591179790; 11870436885927095157; 18924894763796765950; 48181761063966585448; 22831662503909255974; 37144939533814612075; 85533246038263629636; 31921202895360054758; 52561092509216801809; 48600603882606554020; 19604821804626841486] 1107;
SciE false 429 [1409843216; 12321909615911495158; 2675415560782845279; 72986958451236728260; 94101033642049786988; 49607413826566869810; 94741349408678779986; 5468772025622690668; 50791484567961801284; 83156045848912763932; 72728792657097755400; 46322548642026877870; 80775068988524958741; 48893740635459815711; 31233114260802264607; 14052972389829184229; 65255949772760103607; 30558312416388767339; 31520678095799109584; 30346038514721386823; 14100912476430900067; 44835523180991129135] 1109;
SciE false 429 [3343599041; 84582916201662956059; 6337640498932047723; 38551027414060326387; 21443294811299855740; 77293336761909081760; 6918124256018234116; 71565611066741273420; 34846135751800981529; 74986971049956230351; 76283423041285902835; 30003012225001175467; 48159577027362502379; 81068207643254433427; 54449501948249495078; 56035799095187302536; 99898160835830246298; 2585625178678496886; 98642215660292835177; 81144468563843599777; 61433322834158719983; 31105765348550103297] 1110;
SciE false 424 [12463; 1403052925681004657; 61719695650673557320; 35227281204712708932; 67782671853137395720; 11697830529538226851; 12912877513528772720; 41507672343944706504; 58550960996723580782; 32335791099445304388; 83316530922527088744; 15774009491329995517; 60037794051609858560; 63527476220667217464; 77088800100730065492; 1912712228275926089; 98859012862595991199; 31588858135481760876; 70327954642794366864; 12872524258980470137; 5951656652066291649; 15659624346024919961] 1112;
SciE false 425 [295908; 51520335588083847171; 61122710881184155486; 22351961765926144338; 88526847731590800037; 23305840460303428953; 73576612253996657613; 71932933556579406602; 69770083883014034386; 86538286346937921126; 38613101082939153802; 40092405266581912604; 2887212122566921581; 46061324536376428017; 35833768780922420080; 31445259168219924076; 27452440987233970976; 79737528827828313046; 97449829836085935915; 91323631285467900158; 58031886849070823046; 71852302860233346684] 1113;
SciE false 427 [11042230; 43104892153370126648; 83650346496771785832; 11371147375460114352; 55447261879732608023; 64277849170868990100; 40809476986492630287; 75797696735009963062; 76151443097092573138; 49510914108539688506; 18446397359000627323; 75772409318376028593; 93485529726334684722; 85343931511154673787; 676889246838025928; 94663034252470515729; 89085396260048202593; 87728308036840136759; 10567813515809041618; 5056493456696541434; 73167793730734401152; 74427170578079085961] 1115;
SciE false 428 [262470852; 98537666630372441219; 15844551610345916280; 26190086376490028591; 23313937921039633025; 72280488289141481963; 62455069295035303369; 4512064685933656592; 86064404233448501149; 59459989733936039104; 49820660567029422729; 61963471458156479773; 60957152716859442755; 56394863765891651396; 84552908678186611238; 91944882211072655655; 50315155676532256419; 27188070283713672666; 37999064608225157415; 4060950210027440660; 74283635125820042439; 32992637026978508833] 1116;
SciE false 429 [9805500622; 77144232192672464166; 81507689133345818916; 97578869408581545068; 37168549202555924994; 78730063731663209162; 38815564005455695529; 8354700688847199732; 22481470218204946983; 65691728383243393491; 80400854792557063496; 85899474717913391414; 15150396985200033893; 85411181905350322862; 1077651192167024904; 60774416193817968143; 7831878922803903363; 2737536714041442085; 84218402038428956828; 90166189546528794041; 73000832892148223636; 91327473334228333602] 1117;
SciE false 429 [2333365883; 3999856344011002438; 31858063815975195731; 52829867886996354176; 6260908118042337598; 67573540890467774656; 62225566032863846950; 81112255057950207110; 53112553635357175219; 89599308734691387638; 98905672440891568066; 31855261263011105187; 38909087652880446096; 96350338878776780917; 95675358149078973913; 99390002856435908777; 42301733964371759567; 32701944822214550004; 11811684367121649419; 71101847367143947474; 381516268540177285; 64304543169838943532] 1119;
SciE false 424 [87268; 95554266583666514784; 93108465418433286777; 78836108451937736375; 75110850800087902747; 73245360697567211802; 56154525458519648555; 69020884356836130740; 7761680085084942024; 2815454656382610866; 20207705567607653757; 86512204505324989429; 18358594838533168280; 30165530159518957617; 87347189591095610286; 52165100892304124979; 91647339703722412954; 73993094364076754968; 83456399543778142017; 71577722479086964106; 26697139707412740119; 19036852814512674632] 1120;
SciE false 426 [2079029; 178863872002513803; 17254185534860033899; 39679171412287313751; 57087178469133175722; 80042008024933406787; 21905042979335281687; 63317271019256633634; 53548323285289103243; 12092732984082610026; 38633924954144834387; 14708983037785342894; 72196367997098716477; 47239448151940990111; 79789946744110829365; 75736856492545084394; 72068390844962255237; 77448837432836593164; 5366924210771105389; 63296251746004125257; 19933739930995269297; 96150795347964326498] 1122;
SciE false 427 [77843908; 34405792630531188158; 52751153242491805787; 21808739128460847169; 98878913678409250977; 34861742229952927884; 89836708999526511675; 66628846297828620149; 23418635895768285433; 11385553493288892652; 25273366306027152015; 68886418749890570831; 75866595971586106029; 7652902290910195143; 13693115257284375577; 31269995935279482085; 49427015720392355628; 1840172756465432200; 43108393050102679802; 47328451345571982790; 13848619012164186317; 80872710545305771894] 1123;
SciE false 429 [1856572898; 59725437698244826233; 7987682630010272161; 33500071172571180152; 78850372935925920460; 77513166265532260986; 61203380546406547056; 42323020196173835640; 18652693763169196106; 98810554785770753563; 94984051337107722; 35121852742311204986; 71356621409153814382; 84827199683304169835; 52422442490970623621; 33012847842760364485; 57073024551293927332; 61811827523077695499; 92663320218597112942; 23552809181683854679; 829758378775483079; 62660245732143563327] 1125;
SciE false 429 [6959245405; 95877861169488221372; 35953099878767437377; 29701278084399736996; 99774882849787037374; 96639755357791752909; 91401784557670143804; 56618859025878641341; 53626049081684717720; 37868482300027003111; 39438947758827390202; 58445836240217032359; 22473679859797878999; 44169464807371445796; 44164504001223176611; 75537636613985698443; 18775205403076593144; 84511444428009638718; 53890338679179574341; 11163550294135261438; 38066539687478256812; 10020322750336007395] 1126;
SciE false 424 [16616; 32744244542667399291; 19478606489759538591; 93584394825636994512; 6236745710837776536; 98812393742838076513; 73583017770255890338; 59615498791030755755; 82897966941609180364; 30515754354465332648; 24438885850107259467; 11411504340582043685; 28463108641761611926; 63872649203437165572; 32002794180860294187; 8141090464988192705; 26214585803569734080; 64962693215856331545; 37472434336715956444; 16083300797642176070; 49937712426337490040; 57356265809199302684] 1128;
SciE false 425 [623548; 38837390656360786144; 63496341397749137562; 38900581234516362216; 43493099829503340918; 54879698922080058141; 6072829599896367244; 88488913049768718726; 26420164893997718950; 70774593016014082419; 47878093729719190934; 16215156746927123446; 9938653641715437889; 95834997584046740481; 54336117139558509596; 62441328172240613118; 58050962258404115662; 74577812225420749663; 62918108574345654489; 86096360254106354519; 42487890761955998051; 81036417820918430106] 1129;
SciE false 427 [14904845; 71587354772657164201; 72310021314306116966; 45202158596384077319; 94360902621485553678; 34717187325754632821; 3966939919533633720; 75102415554587912978; 59476346623434786781; 72631655955403385475; 21680607546211742001; 36119393502093185700; 31408451660165898194; 93766335483137518371; 6506380231683885812; 2558147094408856620; 14483465802051470342; 71535814623129396201; 12773600034212930412; 26720815485031935237; 94128046424728566394; 48570430851774508347] 1131;
SciE false 428 [559946452; 75976809411985957882; 19714575178725531025; 32721948595693270358; 56803646894000144856; 81969632027892210672; 53400980706937785906; 63043918692309416185; 25308074809951617735; 55584528380646012691; 94528169287833458877; 61210758740556854597; 24910970260463225182; 59827830473972952425; 93833191323541617768; 72312698672070580485; 29764108046895865145; 70875378427833197939; 461499762397731895; 14531508187506358443; 54125904236486250525; 70703203184750235423] 1132;
SciE false 429 [1339945629; 85703194061879061734; 90670916156119915284; 3674057814928551062; 93045145671551275683; 41075140585341490611; 46627898766073671495; 51707158357453376775; 66923561446787331677; 19585870390764354221; 99086618404435605922; 37133475838177394458; 23619804248914247724; 89593559934062901558; 74923582828381334501; 9977423787356210151; 2063575604427183810; 11069734619332718481; 38346643075742444062; 82201312104370977890; 92111373583098118864; 26481733574528300479] 1134;
SciE false 429 [5039518074; 83791284707873620939; 77431176608529779227; 94497537361239433227; 11232822046001303711; 37726688251029896052; 80608826362440073159; 67395268230784745667; 27772673289564559620; 260755425814114227; 50753523590501129898; 50896828665011691375; 24198732344169026643; 38450474265756571833; 44498721911874559918; 50814288048635224367; 67876972422062786311; 37878405850498781451; 4153497861579587056; 30783573687557225991; 87133138128376254731; 36328828662752118815] 1135;
SciE false 425 [120729; 10125011857784975303; 46231509449545666404; 36709171032609125062; 45077003367625006769; 93907530870166739268; 30409311173678823237; 80174608814968006549; 24748779812886355538; 58411534686922207868; 31540137704318239648; 9360565726173019783; 24068708144362827173; 72001312379750059067; 43044330614812837158; 23854908965883240794; 53460695928161958889; 26129097383089201877; 93517265032541124394; 21006026338220603825; 10797199234759837140; 50967026004195064999] 1137;
SciE false 426 [4545645; 30350379738806502006; 8767642921300893860; 86360636778699837968; 77085532005485493175; 94766229472802428966; 23963109161378920945; 99002590531944167840; 59188450951307187232; 77724235201394084331; 3321179678278632019; 16845508939455840545; 62046827256574440462; 3233282327787712427; 79376737847164510853; 4649434487819868972; 37964625029124700633; 25286366322077149900; 86883946455071144787; 52478966783466176617; 84466794090591795381; 76768968603453802411] 1138;
SciE false 428 [109018378; 42885707579832699026; 47053032939736763143; 48381442446039931393; 4534040965381113254; 98500375760565559278; 59607989831977383734; 97671759916109913970; 48148171036379051341; 45615822290753705088; 80744346999370402228; 52590850734236864266; 34043454359632937869; 17185078914303337889; 69030545175991953889; 40982796192566437464; 75008423130248877002; 94574936929549295775; 46090324384635327971; 68441783413205254072; 49870908988132937880; 23224481788143694885] 1140;
SciE false 429 [4109263354; 36743283881077813503; 25949200856008050220; 70015647944653523768; 85320932958885831056; 68671443413395785480; 62650681886544535174; 98341840877527727895; 6359659981697258430; 62708622060252235254; 2346429163883345328; 28340081268079853240; 90331839943294177677; 22887224320092034725; 56571013836717811154; 3088776989161551031; 20021026328729372460; 58875155157743510385; 43087595384314887922; 40985972253423662531; 57981857894983025117; 99147617522237379698] 1141;
SciE false 429 [9866163247; 81156535974859261895; 58299481046177064485; 28520541366613791070; 60330707366990749576; 14284006331183114712; 94523079793953228015; 39294272407947214328; 57409478792304146401; 78231917313210310537; 7363403443021401681; 59471991448436216103; 80932619546780877160; 5249641744452079016; 97264338427271826991; 58943055427262590559; 88262293287523368766; 59031792124211267679; 21174356809497181437; 43981398895075493561; 13317263426030878161; 1815601827004387133] 1142;
SciE false 424 [37229; 92599056894151962564; 99033953099759755432; 93499954341770378560; 92534581007652607505; 62937358163277325365; 81645447615177892093; 48868534977078350401; 21472927618519434177; 16138148140115865885; 25140145258648224783; 10867424761136288803; 47036258406469886245; 24975569358252340033; 83461362533385360663; 36905551984319521803; 65234267390498538288; 11449293408905729156; 20409200373614181892; 88457703332908616018; 38253611315632528546; 20756900277414751470] 1144;
SciE false 425 [894861; 657650897812919735; 5392937762930888259; 74881536813101951870; 85010371995158186060; 98655615559374238308; 50446413243337311557; 78099613990507400812; 33960167039726461986; 7864165634900308175; 16571257860692282041; 13252064109624373164; 80061550588592893025; 55841676142506221803; 56683941875495353554; 70813716135127252716; 96378135390001178369; 54712974183545665961; 97850450514162621394; 35637579112879783347; 26599477875792741000; 64920434675085709297] 1145;
SciE false 427 [33804772; 79943659889982009011; 22829414581857933104; 97958542327503733320; 21399554948567615111; 47121212255811432161; 34066434581526020887; 72629759187142164302; 97418277615646232862; 53438511225206223808; 27251894852588103062; 67621683111750233551; 8922633074656710686; 77816977293124750721; 82917180313907482339; 10241201762125797716; 32714790572672765607; 95958415286402073833; 31553939241677158739; 19594626281023344691; 34279074594335919956; 47265451892594335359] 1147;
SciE false 428 [813428654; 97804666111944039164; 2180426504177428111; 67316963109674250602; 74428143598791129436; 77954543471182622430; 55789638193616206022; 92549117371227338416; 69791839111353945345; 48526562124380131225; 63273395369284375389; 46126275648555206803; 75949485030939760232; 60083613538155619442; 25703164825276381229; 69667966830672719720; 7725069511071137918; 34093532843010359438; 46059517373822847469; 94559413607723062664; 78925389095601569590; 12675119652909751802] 1148;
SciE false 429 [3076234324; 74873049988362820021; 77476726949071912553; 14227351802839732139; 47359500319652975143; 88030315278840326682; 45546918867900783; 9308086029936951570; 65063263023807190490; 62904521493766366552; 79922431585517378703; 53573163169271253149; 11959609793760672496; 81344933674352315686; 45463408565580892858; 31949360353447592185; 77045942113221670324; 32215791062588718831; 71408470992621445266; 83110991573124366912; 19395788084568716039; 1156122226084517700] 1150;
SciE false 429 [7410335046; 85000508279810196784; 23863685453056370097; 34257533929132422991; 40388184987189169; 6165891022473690342; 38243603943843636868; 85122459251881052976; 11803654304434442097; 37076980953102995465; 51420631814180659797; 99210371158337933982; 24899808631861215718; 99361719332597693118; 96155831558267833002; 53675177827428476649; 90375383245858066436; 8592084199824374484; 37602203275526140451; 20436257966357100876; 23010294660930298966; 5470340038007838924] 1151;
SciE false 425 [280552; 57041708422158938689; 18598585877497755358; 42484657534484418983; 57111999186429152351; 33312188364753430237; 79339844153879000752; 55141808897445930249; 98324333769587771215; 77274536892360231492; 62961528925760599184; 93776245872481037538; 28719970716413190973; 33170938657951100931; 19060466262861180977; 42867873781664234420; 40734226589920725816; 33357818080144908091; 15745232452554527075; 80833499722431468942; 26239208895873312666; 90275785438347018908] 1153;
SciE false 426 [6765635; 89777405464059466709; 66400987544818640465; 89887377128477297902; 19078336874412893303; 71135329458503518479; 28259516410400729240; 46126116805296967401; 36719576736379948645; 63489951283610183034; 86001447036846346942; 39556679068867562533; 72579333525280889289; 95144117249750661693; 81761190274212698531; 53131605437356442199; 18136212724903468414; 65614644572874439653; 90423530811590555366; 23194958303523284033; 9999808399025429362; 95600794420454701156] 1154;
SciE false 428 [256425049; 36121497853269961915; 99107492032948397600; 30976986518758950984; 367256396245249118; 47340165384635237343; 16617556645406687831; 99613332265580248484; 68441065403222891216; 28926719617251584263; 46837438145187655033; 11488727447668309994; 50053234801656549625; 18237933367306251108; 21266164255119413369; 81236636441110260252; 31083103187543396128; 89045725252445995317; 91142461634837747288; 81818746302362613227; 82636930828207777549; 12067890649175281925] 1156;
SciE false 429 [6190556846; 46325999614412039342; 56903603509056026297; 46950072556727580504; 56678240087797372895; 88826454530719408543; 57457515516667255022; 5396876846725172250; 98412713787653010755; 93305424503317476896; 91324038714407452291; 94361348013819718359; 10090175632013700305; 56867283521855449843; 11489100904619156351; 15418975181144612250; 94634643286673599410; 37399784180112283322; 37530692605358160102; 23386847723804890286; 49824685108267867104; 74726894716051558597] 1157;
SciE false 429 [2348853452; 14872920335952851150; 47824627021807322018; 83749196511831991013; 47364068589606481925; 21635914923258774063; 40216818871925260541; 8458123552715076119; 70920159093521683541; 20968751694024511853; 37030933409918920103; 33236743420641719549; 62487630783173994566; 67059469644525260151; 22798064576893826467; 48127589800569983911; 16721225197897508540; 63658843312405317112; 6864948575113765165; 57459716129641537166; 88954286386383242349; 94541878346445582433] 1159;
SciE false 424 [56767; 40628206809416464158; 40077135806044178043; 76114779532165345191; 91322687739461605101; 90945529538588046696; 97634457885417287838; 72855223489360684469; 82954152444585432778; 10863190610742695421; 26314469441435011116; 33751712293561286726; 81735295526910545565; 63180206472989895414; 47506136355055295357; 66374008392002411096; 9434117799678938796; 90659312956020931629; 63806618156451191134; 32813748457393627290; 84392718892362442816; 34135053245624546192] 1160;
SciE false 426 [2156247; 46907253340868404717; 35613903007606019121; 61329281762397861767; 75036880214965258750; 40734861769899551554; 59020319039724427389; 17671564557421392439; 87789304706047852905; 49083049314055114501; 88139394396870305568; 65485911330460149098; 54655563645058953727; 1220360593133674188; 81882728623281588532; 69714781127436923245; 23045150084731669912; 84030438818160788081; 10887902022791954436; 42199748019407010931; 11920460034902699816; 47724989444322037044] 1162;
SciE false 427 [52169246; 37322057853730561570; 30887805754599622216; 49482390059952231368; 25550032565215088654; 78941645962414914521; 26066796698487523791; 53950386722469027773; 34866096574012723081; 83272171272537092140; 82997416678775215914; 17823597782822501945; 14736589230791374815; 62609748677713885902; 58139310295816433692; 97713712250215797310; 69954257904944754357; 15908606583236167637; 38282085778644652447; 55834832344743480285; 56908662081084948217; 70113932728957951176] 1163;
SciE false 429 [1983747671; 54673073598932339967; 64790766997537591884; 22939221406032826330; 33929797768038050374; 76072828307587430222; 98693516546473198042; 57839392827681044687; 66160329564024673051; 56405368930705341730; 88242845120681123162; 47038424023337170662; 83118553454237428851; 22731745682980253713; 32110333419061450081; 37598637241969385612; 1538077953136319813; 8003712707925034620; 16869860968598081508; 23768177854450056629; 66823232110483831159; 6990288776274081099] 1165;
SciE false 429 [4804787590; 97361528328584720625; 44766909998625206139; 17328124521600509016; 33157999256309665106; 10525593138413627408; 10751975930700941200; 78830617139397457925; 41167494466571795836; 79366974200666186170; 44062076115197385695; 81553355797952429148; 7239868155885620519; 16357853217448891627; 74630478244693543123; 19432898244874932315; 42787153045411876294; 35182666316051039402; 95780100213172490420; 12388058950874534300; 91287777667923730850; 27493204337027303325] 1166;
SciE false 424 [18290; 15353166085738582156; 17450171370871717296; 59717259499621363622; 65876572832735421310; 82445529391476995956; 10665593954222558482; 88595257279201871219; 23202023998238580307; 48553542057501541103; 25075873599032012679; 95555797694269495168; 71351130353062848069; 9400831586695197077; 93923682057274123746; 56975028659435370957; 73534278181078727916; 86867659794231167068; 81919795540118130474; 31150595142599818029; 52212554110200058660; 92328662450462517247] 1168;
SciE false 425 [443481; 89464686469064728369; 71372881985792873106; 52664569385893343726; 98220740483331357382; 8929351512246675577; 80976832407378403696; 87283276065961966385; 36651549759739264576; 75573605571718721488; 98353166929625432718; 69972377374740151009; 21036708239830788242; 77391879829851970532; 69724098393141985214; 3027083656508001956; 25271399254226091516; 18196867360100971510; 93689300503249675820; 86577743417841165719; 51597425861878749360; 35748037622760307620] 1169;
SciE false 427 [16900101; 86325463222449912305; 23958346685466782055; 78747777650139987336; 69953297447529291201; 79669157724744263442; 55008813701644038186; 62017725982529006570; 38670174372448204116; 63472861131423979403; 70107205505579716278; 93557069505013535891; 28444446230071615842; 86368386106362100015; 85482220921290341830; 44926481318282764947; 45673039316744595186; 65717649869598371588; 93891079069152558263; 83149911762231859278; 44399997824854202693; 11684104227365936253] 1171;
SciE false 428 [410220752; 54834983884873741985; 19915836858407623537; 14726681951342947458; 54184947081505578432; 59650148828174909474; 3569976825023419607; 37030361014818906464; 2683527758819733499; 5585153839817377309; 76679409903525264797; 24449071634639683519; 58955121843479124565; 87488842613072742744; 94791013656336322978; 52382269901809533; 76044310159134652468; 32102308093398647616; 62602965505950134300; 84412661503078290552; 27618922237843158330; 66934801053284548589] 1172;
SciE false 429 [1564949432; 53737894398861879465; 18542903074224018365; 92044210402962827378; 37675343641212365286; 37364005311318794780; 13816148772237936081; 2841425982186008417; 80858146888703701200; 37586940769860492782; 71927229816681727429; 43384636164253423532; 93955720904631627049; 17712553449130461468; 15653657311485653499; 60192170072984034134; 49323440730549514284; 45454377924809209135; 74313921803526895230; 79681829182670169183; 91439798581499169382; 61948051454085697086] 1174;
SciE false 429 [3802746376; 12320300612779588202; 79619807677438670189; 35516341688949122940; 68294459445556712070; 16956879637181410824; 31093685167967099760; 32271446607371262921; 52876302324258929536; 24774376095107087661; 53818129805679204670; 45642894053109866226; 59513979489051484725; 66021571023184325245; 66712696594237714006; 6485583641989774377; 95930755175178228381; 33588396025805463406; 12329490240157744968; 82505372133535753419; 60027409144806077725; 30485605763947765426] 1175;
SciE false 425 [145227; 30733946876600214382; 41436920781405287988; 90435741702725394950; 38071336271889904507; 49857547379692890384; 15559682138606063680; 46831943684331146861; 58117263636031271703; 47139488068103443053; 73023634846926988064; 30545146094236042717; 70385679090899949814; 99016363724960079306; 82424492659398505868; 64476305833382772918; 36768097215299794994; 92559738166271422294; 60779696331943367295; 87741794473748151791; 70026725613308363122; 91870708779174939152] 1177;
SciE false 426 [3532751; 38341845559269272237; 44039766801332340524; 60591094681429033735; 21189445552824922185; 51318752941182941530; 65578486033521041435; 67733980173898247903; 25410022084859236545; 53917415395392354484; 43756897042589475981; 13885402248575339065; 72450688486945328829; 31013834039480538238; 15322476095136046836; 31163425107203408500; 39712419671557740574; 16626103619907973275; 50428854096433106545; 7603847490712054714; 92680865463095524846; 20680821127754707474] 1178;
SciE false 428 [135061395; 82570595238199375645; 36336326706917829681; 5239783534617303854; 6342732857611191973; 67519063114388057264; 70504388903639222835; 53707626427966581270; 49055181509082684228; 39723903336202039969; 11980407642098899804; 6985867639519727464; 58681554536953327940; 85218264212873755346; 54778173240610457839; 62964425045978814081; 94330410228809345280; 80556494632422733985; 25117588707331585165; 99868860585781166281; 24854820376777704314; 39759164632693412001] 1180;
SciE false 429 [3288991537; 96258215679692453057; 1022892040409028408; 10309148410430407482; 27373809680002554712; 77758988241318565040; 53570497208089576615; 60335541899268797929; 56730561003949223896; 97113733110282025011; 37671146650802138440; 27309493423640670189; 51590981346101140087; 73879490756381099720; 65225244571659604606; 13148774806373313869; 72262714220256474548; 78902470134323119494; 49263163779222193465; 79182013852922939596; 85885746141933631818; 53844469939632658368] 1181;
SciE false 429 [1258772209; 9557947620018181014; 78654564908474172627; 40834782542633271919; 87114270232936309194; 65277668226096693707; 5100904581917556827; 20555078308648537440; 97194291664650617008; 66226779093403012512; 19657399224361746173; 93108286400323859969; 94912088284405016408; 74234222463983399829; 82532574602489467065; 34828441428522547243; 71159423332503098017; 10786529974179880742; 54095926752330373747; 10777780659480469741; 23646925911568204210; 18555414376702599852] 1183;
SciE false 424 [30686; 29104919089152291530; 58702190543582737016; 23504760184354669315; 70180961397644314423; 83547021491360291502; 21182819812738951475; 74982357930605920177; 88468286296134166846; 25895874071129918931; 29335614471798251983; 95164774797573642567; 45286818343855959123; 63701860295648757035; 66039368551531853584; 11097520678068943463; 1840451211123674992; 90754020160046353234; 70488361625318060143; 6503583768189247771; 2643869314011504240; 78486696368904536772] 1184;
SciE false 426 [1175693; 24329527123077096981; 6781063363624514877; 23399939686894819475; 97315964728397562512; 78780569342123174311; 92238564244879510998; 7660998443140277733; 96986779468414783676; 28609055811673238413; 68639160010875553870; 92645163139497902485; 21193247890457634285; 32576534763781360495; 44105685424678725162; 23903529764294240059; 12562662901392557893; 54797874618995884008; 61353325595586676569; 7979866447135954758; 73831486228801404702; 73231330757027840228] 1186;
SciE false 427 [28691682; 13099348357392581098; 86548158249859110179; 76950772371615810181; 19198906797433986286; 16465094421872554568; 5936524910919629826; 8504665116535366322; 17847686885446001252; 12642256506474200759; 28799531131365604994; 79064435731355800568; 43175151505321780600; 61239376431587828342; 46809595682283101143; 76181833994462137922; 20821882400636118368; 55008849643340274449; 6618119672386233765; 80850823256946665909; 72017808600756465133; 85061104925741882476] 1187;
SciE false 429 [1100448875; 72437387200162774279; 47075308352545925091; 2343546933551029510; 87742985780118511969; 38612904227291155959; 35296133207222294199; 70694542779299958995; 79625582436237521003; 78076239726151155210; 46253770179518423187; 15872698570036726158; 36880025468345691064; 91636538899353423732; 82921557499286751855; 73703859379408695341; 58652475703434188360; 90810643380147432062; 26712757469129268658; 69154994519253654179; 6271110158114801757; 44525588578058453653] 1189;
SciE false 429 [2688410615; 67408941087684848963; 69562428011798623844; 40287371220401413977; 68937566919564515013; 62779347329458363027; 16252384153169314704; 16887121419363824388; 12328261166290317324; 24579434656632611145; 28516067008957188011; 88337628028038513262; 5511696048650842277; 38129571639779515689; 26059115429926577170; 48237845281102323310; 91010380939604291133; 14329211580983715877; 50117813302590103856; 25722139175902595740; 78068665890880783041; 80225531542014388087] 1190;
SciE false 424 [10322; 21045429462691937526; 82274143566392346880; 77735379982470236708; 65681203029206617511; 64227284189041651991; 4289873077729483745; 11959325114811269833; 61538056887963251907; 94701546355128631297; 83587413860364283882; 80949554885912586944; 49136549934638893082; 58218891550734875935; 11461393804209343309; 73240681342200978853; 56230408160222098212; 68682531803834905782; 91274406565665060432; 54001852673848590599; 27619960823013283116; 84048483650020862188] 1192;
SciE false 425 [252441; 75681179699568133607; 31769101911990307890; 77898942984157595692; 77250503237533747107; 95977964980714236140; 28825056098871982598; 65072145700701278263; 11004477623723514660; 79674668008914257802; 18654227658692141079; 95431584903271832816; 39530697548258968314; 8984610366776975296; 52322156950938870105; 59630829533671895508; 15889445874770228842; 93740215512967454370; 92089736062669113210; 75210255308868617253; 74005930647727153705; 52762523177411795151] 1193;
SciE false 426 [9702877; 82703694930421275213; 37694952408806067930; 71257183522022506137; 40330847454220460943; 73647137699152871580; 32480693065714720412; 41765607922593643598; 45773474685456793470; 19453573820913419965; 72169028742426849840; 92581592757831727821; 88356938560559497627; 25758057690783379007; 73710175956782711148; 46240461668920122348; 56583670608772319925; 61579895604811435937; 97942171725156806587; 61741513417675163319; 62763173632486129830; 5574631019610456997] 1194;
SciE false 428 [237547693; 15990097293613724485; 94724899182879725223; 2905348092297546898; 92723546519256028590; 15265046852096208011; 24377789038535625330; 32889104359902845586; 55213443923827295809; 73862596388316591857; 53628226829304756237; 1121393978794680227; 98386392911689183558; 54518355137133754028; 35149690833476769366; 12610591185253673177; 51968568158785341204; 9542797702374563036; 56441634971635531317; 72850245645368835769; 39580739511251636901; 49534309944499237129] 1196;
SciE false 429 [9140110913; 6880624456841251001; 8645169095315990731; 24266877745200781433; 91658301875674208999; 75603712602005028665; 96812867903266628497; 43202663083212269747; 18613153700299448923; 25266539300441607709; 83225075366092550152; 11860377877487608214; 32236124047046764876; 64090344717943025288; 34985751289313901851; 58514892122755252349; 1817713463525369930; 8261659732372653576; 61525765097711805535; 60505639450003847089; 22909561801934299912; 51302420473050491694] 1197;
SciE false 429 [2240074746; 49786617478777421902; 48255799294555808853; 16397432510365867256; 88383043676584349605; 13949391815267241546; 2882550633390946865; 144254113883833881; 18662776201691399485; 83524283941825461216; 56714179000343851315; 1574745220033834549; 88783685157229000957; 8108088943171300487; 35461584559685935122; 56917874876942138064; 1063597737345767554; 61988582333392129434; 80244617782523060326; 17977816435828121305; 40246373591102935981; 10108542776627806135] 1199;
SciE false 424 [86282; 64701936953094872581; 40945025610396259782; 95250293079325914695; 37673617254369706364; 53295769699046962927; 47060673913473006836; 97301575833139505523; 82641343708170930826; 79783550516130996168; 77678081644711455913; 67343599961967163483; 2154320309011004121; 46043549012854137382; 15872202265492171123; 23347896380581638809; 58217473159215095679; 49213997990067873597; 84976324803222522399; 44425611173236408036; 31652232266263410259; 79117412294849265596] 1200;
SciE false 426 [2116870; 63544048353517444663; 69784601730333355239; 36623995573722295744; 55775521976274372210; 37685682175265427543; 26099724010348554444; 78742636320137620223; 1772136323510598372; 51411430448325025060; 84965594899155324939; 49268988134232931973; 64964400582473581405; 90444162144051296878; 96055011197408903208; 69082787391758710320; 47049005099861791750; 33911579210305055562; 31588831163804484292; 823989036531857574; 63360532823043592274; 50214052572923913276] 1202;
SciE false 427 [81623384; 8032357627749462013; 33994227434861754673; 6777253042315301826; 39241922633742220848; 17798135298426929387; 19397522145464467776; 47290738149972225539; 78711147929700562150; 75238788259922375662; 83465235897037294335; 7045564020936654938; 37987012324409898901; 57197366160013963522; 15103343155593882578; 87109976030230313864; 73729608617480512799; 56442098604208423565; 87603263848506189874; 26628169881642002355; 43011723885186105762; 45072030927405254422] 1203;
SciE false 429 [2004676491; 76213790781020096521; 86017838625687411679; 82923808315014070096; 19419311531830483226; 88341019976359883468; 16438637800081059213; 69276595170326351197; 78213098364536658770; 86624634563798732624; 62418369500092717699; 57731763118586579046; 21287351602481591391; 50621550416578144375; 64095603946231338630; 21399659995498673485; 55407829569116787571; 14265512158887617513; 14623112122846624531; 80317617595669123178; 2424583422281883953; 52707786558945873127] 1205;
SciE false 429 [7737896810; 81467503110648998864; 62652760824894343006; 82483588411490613142; 134265678762536407; 27263226290872905905; 98885099390031545209; 63161976617366981171; 81816823735613291891; 32637127040641212836; 72504363039135502964; 67919469184794888158; 41168768354058415869; 2310311969323741899; 91796931150300068476; 98025727665833754377; 9566896937152613398; 70710947678958554045; 4789412838386800080; 44350504779661823294; 77511424315642826280; 32828531918018119296] 1206;
SciE false 424 [19024; 37990682268874511880; 71599245309288557773; 53684157946940909483; 52521288289266437071; 28582312356279575655; 29411288002672722769; 25193794434888166397; 7286695242303479452; 89173552067782010449; 97260768350326555879; 89096898874431995386; 63514856016966707550; 30230539398513453326; 59012483267281449735; 40360073082773357282; 41137790820302610918; 31405014379710387843; 49019975773334045814; 46680681214190982899; 97895945009296677455; 7871897196894444396] 1208;
SciE false 425 [735100; 19702739412795511654; 89213952012278364962; 58564835940899091608; 24849012755239482440; 95869090006497632926; 6106894084442052996; 79491500387778649863; 21132272598254883262; 72967600527068860915; 21948887914488717872; 78164452349572555514; 37504911032993635549; 50755719479637085755; 48049220708459278506; 50531312444128254206; 66582408855209029498; 27287717540029501062; 63427954994219646746; 764213297954067873; 21300363585309986068; 49663118710532211721] 1209;
SciE false 427 [18092185; 29138837699660798560; 90882289133418442633; 53634207540804918832; 47745163092381654792; 81779050821876448184; 70134890541759353558; 59298507578646243616; 29647175430608959700; 4048016460691937923; 94990701160554641776; 31150829584827612690; 2628072135338880337; 49242967986294113587; 20871587184658698368; 82429501717462775573; 22039070107782983316; 66168675104578839159; 17996960440677569557; 93327834695624737879; 99043703841140259779; 86174234246616620915] 1211;
SciE false 428 [699815387; 57007920981327095457; 31682315689003444381; 53723815735935211052; 56260142987987283792; 67373686185746545610; 13763168388834452948; 75908369165274669777; 17923513538648866118; 65155701769555591288; 95341294593259414888; 12558636793072849685; 4675303409941043131; 19444944614505639217; 42858114453233138193; 5809446810098004745; 86453230158996082355; 77907098108085011627; 83413154497103702199; 27531059652272615298; 77946133215106737208; 79289012426665558709] 1212;
SciE false 429 [1724185258; 26931232777674102854; 61082154414777582976; 1339978638708764735; 10114042703971701755; 53543543324825512002; 3855068629666394133; 91147772244987016633; 5375818537033859413; 85775968703941684152; 42613820600857361282; 48674059434071489359; 50455274497795296163; 2854849093829024860; 99062258697973954548; 95531513674202512127; 90323381271718310077; 85874737466363371869; 85110329996572378871; 4142646493037519963; 8864976060666757020; 82404523702563973249] 1214;
SciE false 429 [6676238797; 41855566161860490662; 80249291673092859399; 86525202120821913441; 44721764105398687382; 10744966212022045120; 71300626429480681131; 16165841836720349674; 28990319158710182771; 93585394881560340896; 61555950419694818032; 71809395005914985995; 34602394530837551471; 59504771622383798134; 26866411883844138361; 77422122568334965275; 54763815716822625674; 13233715951131010929; 53761493902369318981; 8646309082680749950; 35606110872118272971; 88417178550389430085] 1215;
SciE false 425 [164659; 69216471932730267876; 82261533345746611259; 17420927967959996687; 3220215891078229297; 51765363408387520836; 39619468159054133140; 63978854612249396260; 8845663390670286733; 57402341605011226430; 83655669619867381878; 247748372675953827; 23383268478714539450; 78356922638088460671; 87422460445705656512; 65942523259555886339; 90821475882911449098; 61243551037428037702; 1357078036514672662; 18218445622740085083; 15647496605213793675; 29548869632013594859] 1217;
SciE false 426 [6382484; 29033213921250738629; 7363918322839476773; 58627118093227505749; 25002354006484761145; 13729472187698693075; 13540163398866583531; 16139054544795904654; 28862114745115726934; 72997067637506771685; 89716447488601228246; 3927849781625654726; 61155079889171480699; 20684486561670998911; 1636084289760954996; 27385615549175328226; 80342354207825282430; 14447051432449281246; 44863795988170665068; 94591865871483042796; 95254039441993745068; 96112126822694172295] 1218;
SciE false 428 [157579325; 40163639622866358119; 24287411879506975029; 71828065337716829489; 81746607761865437724; 39452781826857440431; 15831028214805415592; 27763863922672220904; 65299864871464404030; 34040915995743694310; 58475826213084457248; 37095192650887812662; 77787934129814254399; 87574964650656862983; 63294646540313282615; 6994759394983227292; 16152419946256787372; 10078342818632080826; 98723680944541737708; 35052460962261424580; 74654251189600547257; 78268237837010280489] 1220;
SciE false 429 [6114419950; 13818936558207606652; 54633753280218749095; 64779133311950507781; 52255138212401177041; 52834355815347965979; 71476536114187022852; 61214253914476658808; 49905925820866403471; 31190796731487275089; 48356694079976659705; 62880090797377228093; 86566533826278509840; 15738126080816956753; 67368749590994886430; 35419696109964441277; 67975331096620568078; 40275272286411434097; 79516556667497136050; 19007504880754999480; 53369785430007776064; 75417496141017058764] 1221;
SciE false 429 [1511185730; 60169303983288374363; 53916279924471890534; 99831146588704394807; 34949968436289547776; 94352177719562853734; 80819560579983935529; 94255455018426598475; 62225704117343634650; 96452384399182028438; 50783173383479945011; 87742897522014123436; 3986288304918699694; 80843910999799316013; 3995660321604380278; 52079742597889149731; 82901707284602590898; 44651307630681655130; 80760100258155264623; 8153100628087061729; 35934268908269248202; 13592400856928589890] 1223;
SciE false 424 [58698; 43152132661790958793; 2386444484031490099; 99131821879679794724; 87470261649326839051; 29959867209815827340; 47340526174746696195; 41938507656837578975; 92456159096887880317; 47332459431648622277; 84085904224263167775; 93317403648871654821; 38970111038724732273; 69446551086010375842; 78483526739996073550; 90973140029082655658; 63626572563178527557; 45355266642613949549; 76733883358944007972; 50608182472046855247; 99501312349940128074; 65022164007962953763] 1224;
SciE false 426 [1452249; 48710822701127940127; 76336113545007417486; 80413337731871744923; 40986286919667274255; 41364272442788499902; 43915067597717364562; 4427479492272707961; 13507298901656767232; 89957690741407613929; 32940602629621524227; 15641420924518655572; 62203430823061026870; 40671090998470807142; 68853139829569061809; 44765848632636571472; 89228768540700503089; 85340709906633085070; 58070610456348087209; 30278135129703591666; 32191432832420846747; 52225262297223508374] 1226;
SciE false 427 [56467891; 12351620642902358888; 95759593638293476191; 64812648251962525329; 46391706652419167350; 21392255842825901535; 41586180106321739993; 44844365877750974839; 42825051206140865409; 33825973245974631282; 90639863741167400447; 71342310214531938176; 89246819253192447294; 7582144741981560759; 1152723876222755975; 16160707977514743608; 8762805777743510270; 31766510194619466876; 17995791304135669550; 85071538109074748571; 20262480642403207813; 51321775660361520741] 1227;
SciE false 429 [1398516256; 8522261186206343036; 11677343842143039792; 38044235792490361243; 69794303639585107963; 33794362405325406048; 90210096601822073248; 63662751058617766573; 7528842295466845282; 29256183975532213944; 21800332325527830751; 62688350311465316435; 1903882607768876201; 66260631527387278409; 5573655875006522498; 9512233229018328395; 27304104694584475528; 83103640087660922969; 21997869463207982558; 57844129904558774668; 349817621275417863; 92927592226238565013] 1229;
SciE false 429 [5443504704; 30696229975787396895; 51224826731491104874; 87939291489187441760; 32160521293207732560; 62213463248416908014; 8907762249415735368; 42996870615193974520; 88334936271979425460; 20823820911954455672; 17682864648537403159; 57398704680878840252; 43393376007751919148; 90918753127022457168; 71122581667873676005; 57892249032421283819; 64734476974474390058; 62291582761316606863; 74794281718678544702; 896273714805762263; 93303133927669233222; 67419173658850599442] 1230;
SciE false 424 [13495; 68187122239820446891; 21029852686368076680; 33399647126875397531; 98600168515030121996; 29184621115597211390; 16837190527432207583; 684934345547715661; 44743017653328151255; 5697412322175363885; 86456170373206941343; 56675319942580505640; 30359793372467164969; 65534604415094239287; 23664738785779193812; 94210661793050660026; 86901438484610302740; 18885321950126845927; 90665297279440319957; 3169028195853578992; 17554623375740045307; 78238691751264983202] 1232;
SciE false 425 [525842; 55443605255815661062; 54010648318262262040; 73091334935557855506; 87404706706356923866; 96535609820549797073; 31416100489833293560; 3659033497701427737; 93871733154843873212; 49945611581100094800; 41793228164725048713; 14521484714872172895; 96838511800122348835; 38978462751552070369; 36249750441389116597; 10213892391256531896; 1697793350475734226; 7966297366894743184; 22303805127614024347; 41821406580040850236; 63469593082737412847; 92931032692175444967] 1233;
SciE false 427 [13050324; 36947205906372143800; 35867547717930149882; 97458771688509413430; 46362954034127970414; 21528618782503414292; 81563240026944732767; 62331512144641044619; 66498070768322263640; 9397715543576877631; 3116750891112279229; 5034384475348954173; 57920191175748525656; 71962469396129390757; 83802405848480417115; 1709953879988245982; 33691014618162749762; 62106325772660012285; 73342469218789398449; 64450265390410885433; 75320804340623812625; 56814923473238756481] 1235;
SciE false 428 [509015592; 69409887629559908538; 82307572077869655427; 52412217620004130654; 7756091753502303222; 46470306292203566968; 10785274158628166115; 41944425774982050324; 67837693888869269699; 47352010504891766804; 55844863453847154324; 56797203996263363297; 39679422518433672657; 31151943502404117542; 89758427264664865994; 87047834736322875344; 43463963260510730845; 11375851154111402327; 90083363530375568300; 83121569479543029062; 38566104089815636795; 57239646025830728933] 1236;
SciE false 429 [1264576431; 40184252327460734254; 75565373867431523660; 23754976616562161411; 92570245907000333137; 46123160024580844973; 83477958610944605182; 69923526815717223645; 53663057450427346725; 10638636172599442446; 92013161348779857294; 97831855661313659419; 82466524930032136136; 13163284484937964434; 50453126717752418445; 15694530970861035688; 44659316499970451997; 98102967370755190487; 56885267300692709770; 55230716330814798530; 68585940606447443417; 55366084556835503043] 1238;
SciE false 429 [4937451249; 13275910006731112826; 58383449155335657646; 98398510914040067344; 55234090008972341257; 90761971034374599590; 64617159338693211319; 56860930017325888149; 38025630722031916084; 89314501897450138004; 21695175502317396948; 30932878763754623984; 74890398428806624775; 92173851973319940166; 10656744467249200150; 24363996942331890841; 1600443626954089197; 60345756194880602580; 63808626244643012518; 6279223951567381905; 14091209671211676917; 5224566450558070651] 1239;
SciE false 425 [122790; 37148911890900996437; 29613677397802527600; 94740906608229468185; 87309798570877569732; 34764748558838386800; 4695935709781122721; 16324009574453806142; 41598160682878436495; 36700783011572359405; 86159594477966966524; 14334239473184713556; 32966497499570706120; 41881838154923487476; 34659038998604293759; 83102473938957270606; 56534816419632147130; 88900395798131700328; 99634293559454897262; 11872062902555722116; 93732959694832886046; 75584446046810468727] 1241;
SciE false 426 [4799202; 61415704184526542641; 66743948712578986259; 23286843352608446945; 45890487535488721115; 70268620635845412110; 80210807878877209801; 40262068823976840763; 28119760913061815022; 43451613695844321534; 14009887710588252509; 83375666758158369494; 51317593467272800039; 28219592984118066981; 84145558355622166222; 54603681805027946597; 89746755631205399374; 70007056075021423945; 70838021984709793008; 16755703405680923495; 21179696655800417749; 96337478278589942444] 1242;
SciE false 428 [119475031; 45891269846669533489; 14108108061859355721; 82902129807272544854; 52434009463875349574; 26100347749750356445; 69145445617032407691; 83261315943553376570; 75010344440718709992; 9861870259905701903; 33285427061858427991; 47215007408726290308; 76402067082297055167; 51028524740553314485; 23244945641977828315; 58707142605424300188; 8376376302079158355; 85111582144420113; 44167633349615036041; 51517204186717619780; 2169783072398123493; 43666003546586071707] 1244;
SciE false 429 [4674423346; 18895875728852532984; 8606046051932616492; 81385425440627324876; 97334859566014366694; 41636499313431395921; 25326874026402346566; 15255034553442903435; 88647129322207831851; 21871739752369174252; 45630630112957944578; 7899422446251887655; 83336037123707238260; 85883566530997240313; 57773838375989900759; 83986078097219986352; 13339984794058990957; 86872617070866923119; 96233413107338389955; 20055117133219484336; 29024542749606888464; 32703843346603941111] 1245;
SciE false 429 [1164881556; 72439881005027951519; 12554053603128718287; 83295765620907312331; 61231592272784658349; 4478390560065975345; 49168094766065974995; 36797830449645421564; 81350858297007422422; 96153235034080593557; 49532913853119672916; 85346322235081330510; 44920154052396287883; 22528116220394816231; 1638220009283826076; 97394640402886926833; 81669668945271793961; 25829837925908096106; 5634425158746601404; 77292740820496792855; 21155384955881704061; 743534579214199145] 1247;
SciE false 424 [45622; 37185880423747113600; 72192467995009466862; 33696986321752300522; 69079925988229364300; 21893750372233299090; 42419143190290497686; 90248564889137241602; 73753425195982184748; 43886789468179983123; 14070397354949902469; 53908205098363075418; 42352093359722327382; 64542598223609342533; 6546051872662549661; 43141603704122228867; 6679682198251590015; 75174879876742611661; 16965083238111927622; 68596275737943220222; 16712219279537236163; 23141183189511062854] 1248;
SciE false 426 [1138089; 28091973763741912308; 63418565310370256757; 76721279963011626444; 14798523265650510611; 20701675387577184457; 91254537228586446457; 57047451480349303576; 86882279788556176251; 70723341710628296739; 90567293656834497920; 43976583356823674459; 90870886990509191173; 26191109969547325735; 45770300540949070298; 7720354563673620527; 51663891266559530542; 70014935751653612209; 89561704833380095429; 57246315007781625366; 61954168811101896424; 86760426433283892272] 1250;
SciE false 427 [44618679; 67791054424677101506; 4233699119258591365; 55652622673749911191; 60167616488318285614; 12087864044166510434; 85922040104106737790; 63096461576222287477; 30849841670576683973; 21280099880023494431; 60848613141004615209; 22224586199087759218; 20347305808436180227; 22661062689936997338; 2038731463973568879; 92488422631539831991; 32729189890055035405; 21032519454274204623; 91851406873465214986; 87157671708469377279; 44550455387416967640; 32077159341819471667] 1251;
SciE false 429 [1114189406; 2042314703332150152; 86775438852481365854; 10133083788382288820; 87754277071849888371; 66940204438063584296; 38191946786131081961; 49454999261968201754; 57751912996496550421; 38151534705102508367; 65380490040973464110; 53075106330377296250; 62598363708498158623; 41096660186831895013; 9124229589139821817; 58227117836474496438; 78949549961780401303; 44622100868886353487; 80909031879113425551; 44142392618211233920; 53131266068756599945; 38457478184930534840] 1253;
SciE false 429 [4372630608; 43523333618355947592; 14902513687341953824; 53957022027491296776; 96426415855191990183; 84610676328318022616; 20359930202460303481; 83453234469784172776; 23284483716515029374; 85449788242302454297; 63164087818452290503; 78009447510600403383; 94035969226745662268; 20784143613825739125; 99795683469409750232; 63865417890903535150; 7460609225393469710; 61186906518872053144; 1437873599591068713; 41451827429998973385; 65944627966862828751; 43561615498308223367] 1254;
SciE false 424 [10930; 19807306035107239688; 39299963267055142842; 19902873405551964030; 25333280869458074847; 40492607683405537403; 76194750662997971945; 91404226153542759908; 5921240546266495631; 15963375266555457055; 60708668382607301949; 68292430666793101001; 27621864089947980366; 93609566158236432820; 89007842508692269461; 65203048208025975814; 81006452495085125065; 73678680742809523775; 12771540717602734102; 70465964036871584652; 20476041217720134502; 24546422267860994168] 1256;
SciE false 425 [429392; 32574833991361322554; 5354903426844096979; 86556978579563099645; 34349789074036979853; 43605368768415440829; 82091119345145881601; 80191615107624932805; 76662606536300961775; 88461071169205394101; 1202742713423772014; 92747120527745540959; 61230294332178066424; 3473801002902877687; 58217299936116696037; 47284511584036886727; 15173732631825933638; 72558208554220153235; 61874221199187479842; 94765730569453625899; 18647175762466345929; 78339097750641933867] 1257;
SciE false 427 [10744384; 70581832510416613690; 31863891515205413881; 64524557657580641739; 2615094677287574999; 4233352787643267897; 99439901727006422833; 50354308932532989622; 20579456979965205429; 91997887024014285661; 76621020102977816538; 31459345457618284254; 52292400418864700698; 18203533546413462934; 94709186044500880803; 94596388489534225958; 29342802668677939619; 26143170181761870950; 54424525403487622958; 68042648244767713117; 27948517018892215707; 29133089307357267681] 1259;
SciE false 428 [422522048; 53636647499541393188; 69224972014591428187; 72066922290090051018; 192448852388175781; 7682868120793776543; 77661435623547496173; 8549265902933880874; 36004831720146387470; 45694030498107795395; 83498830008991662688; 63166599301612304258; 50609622863217361250; 18220186856431644580; 85823137138828900873; 27959398692296539517; 30952909716718700505; 97277217352630783848; 84233660000480165460; 49478880342367884799; 48820950266884394906; 85672186631662925654] 1260;
SciE false 429 [1058321893; 52310502276036448496; 38593314247733267342; 5668929271693211294; 7586825712826137405; 66985249582861887952; 44830320110132649100; 9899429854499477787; 27076512526572734847; 11791871865407137683; 97170480143314929023; 98745527575400999070; 50801441258173018770; 93048054321726099092; 28854825383336759188; 67744266219121256891; 90266062864777052497; 25102262903544288628; 60815752243530861430; 2200852109619742052; 2928926360883247168; 19609296774690866627] 1262;
SciE false 429 [4166067398; 56857344345478136840; 50558224063871481930; 92579853780287903037; 49897545684547413201; 41753079671026636721; 63741755248178312266; 62295761802928065421; 19007640760643380458; 70543140711342862602; 93298463888657794109; 90822669113897319988; 87010881431323181926; 79651042404416015567; 26216132188852962610; 53679671106043879640; 67195689806846386988; 89153363096939528749; 58543887604734431440; 47861760175747344122; 95374569631480133781; 60727760188196446949] 1263;
SciE false 425 [104456; 37089073046574644797; 46659329160116251273; 48666099523319116119; 95472528819697855939; 76193961444133828468; 34090664752594870092; 46617977073726639098; 45760362451786372728; 92941053857753115684; 48940800726390145183; 49466756183571692078; 60825914102252181676; 95269083842961554365; 98040887971265335338; 13192246359075827268; 5523079260404753495; 8147867593348579821; 28764362514746436496; 2314317224103219468; 54053529085031819176; 49550095437591661988] 1265;
SciE false 426 [4116074; 58978575056213332399; 19841951525375105024; 14775468895534924448; 20104898775136332844; 24300052042714974317; 8097776854185200172; 51942348212661292928; 63613579549071515659; 89320096623022806748; 25169778882321993900; 58058932797084530552; 14900366750854147303; 74367495229895563023; 38045501538602586727; 5921035515052771353; 8498389341529164230; 34502483522739776254; 40459041360953477618; 26319287419053638375; 99347830074795902372; 17622799027065938089] 1266;
SciE false 428 [103307350; 81093243062323704694; 46076539354972509478; 30772428562605842635; 22331002681179524424; 55827868248356355189; 15667440316326521449; 5179325915646068374; 56998464816722628911; 18702265317831411960; 2451918399853586476; 22621865552403465743; 56829047127407678506; 21123920688977267954; 62438203581416649412; 47131649125993168106; 62325388540301206635; 58241049821745443253; 47954527084225694566; 88859734638084054386; 58940265096469165554; 5044387778153706662] 1268;
SciE false 429 [4074913843; 88789305651199075206; 43532010121353973906; 27714206579575203719; 3849787384969515800; 57051522287824573910; 16799085643348170794; 22924730534679999349; 77443753580800503294; 26895656792578680769; 18081093498773961574; 78343469113685246627; 51363083345605830706; 23820277596607393146; 65046523216560859788; 61825159902243639554; 13405448113872588041; 57458687512378491860; 54450947343942842080; 56094544863101992233; 54351774047943348454; 46571036795278708690] 1269;
SciE false 429 [1023775846; 53634038747627913522; 10618505007777568930; 2954767055423900515; 6300236570489087047; 37254174341211479924; 54264333534795827560; 10327119824052537591; 98854786333721252509; 86339449299709292523; 84298511342549041979; 40182687624318345518; 76175857032610093996; 55338054027764725430; 32762597491838995677; 59074642838592295936; 63644600434384957758; 62168803733497342641; 98229363404676633157; 86599970263412978971; 10098027106009430640; 63989882881503233022] 1271;
SciE false 424 [40423; 14533136789912059894; 82604783837540403831; 42115026924929269386; 2089286189890858897; 59674165951101095219; 77318886646929582013; 85427875413326904025; 59354976242035521540; 99267914804915382380; 51323027364447507837; 69882185167213607757; 64654493521786788409; 84060588297153758345; 34001477261510308283; 72910309305586230256; 90437700982045289616; 7337241990180122794; 63925660153397651912; 99343916457885041971; 76295675169598555598; 1666829984685009164] 1272;
SciE false 426 [1016609; 41561058600476394518; 12745144175472723125; 94751934083686035933; 21145756134914495663; 43804093395120822999; 56507084483200052256; 76718254829985284169; 82884462802829385203; 74229435073154611327; 47617608421763151198; 68554601408810948117; 10013042626033381823; 33857750687649570372; 35231533259309396122; 70784761120338722149; 86507999088231344263; 5431133622107362861; 24348841757860843896; 72576093770471569088; 11830327340916267364; 62615541953701332710] 1274;
SciE false 427 [40180606; 45937969172587535457; 9155134515161408432; 62336763379693769704; 76750472751513744211; 16120955394488648454; 54973327048004521771; 15308160846942601439; 98846384583308411746; 72307316085890086230; 15089200260822790672; 62892056210326111100; 66566560656067679381; 56224767370835795267; 97468397941246434026; 72847449752712875362; 95074776153017878376; 93218538239042057871; 42106192477266001515; 47852959137731719932; 37901118580964264428; 56829004776899109801] 1275;
SciE false 429 [1011526368; 53253307474012545536; 81418454595359510317; 78174413267605753545; 40027354239923185120; 85072928145218884567; 24549060784051995483; 34663555835357748979; 70040488815238277723; 58287897788838270838; 79520379654335442692; 11828401766893376514; 62977412903214914221; 88461934211322520490; 55375593012849142094; 30837314737028539115; 75459092790187541739; 3977953996826046937; 27097549071539677242; 13213301619211242677; 71175704211686027803; 2464243932826046839] 1277;
SciE false 429 [4001988403; 35421729589718531526; 31851397710076279889; 28741632617499462594; 84347086050768923431; 65647157291069386073; 15343373981250368406; 84692820355483103422; 85099904497517809973; 61808682154652588523; 2884345977949950993; 84048798548480665626; 30029441344340866403; 59986830135245208690; 27852434948144829062; 15605995370202386149; 89447704840580686342; 44566408608588963993; 53776770735693750941; 66154730118079305264; 94951410664040737085; 40168875779151336226] 1278;
SciE false 424 [10084; 91789426935475515905; 7900203741992315734; 31786828398900278029; 36284764072721772034; 15565488177093607832; 27913543754136016998; 39496896595651678516; 75732761303673487925; 62890412130340954717; 56026278818185153724; 36364041929165615926; 96385085884806645052; 69479218965484086885; 52929082094662338105; 94668025448027928174; 53498407327155118169; 79113822660201348355; 68796459162564243250; 58210405736617143536; 8949678621770990509; 69719615568512010275] 1280;
SciE false 425 [399398; 44265475088613053909; 44632658769491465612; 73295088414935226446; 36696537839187866738; 55847931586297648724; 73010071268723328786; 76700332343471477213; 72160052970468852277; 43536708506479034328; 33459827857728599405; 10918528070095138370; 42950476938246165218; 46707926685647497471; 82728979673007824853; 94040317478337946198; 13775946880943089952; 49697607727579137178; 60655506921719422236; 34397782242065784314; 66544196150784271265; 56112308853802759303] 1281;
SciE false 427 [10074832; 97637508540040389173; 92303538250323418583; 55041570501377751333; 48479308649050262121; 49922688916514224446; 85630210381880981396; 57399699056026838240; 57028542369814437703; 27521718210613762842; 70252539366968570639; 27677887236450311036; 88700798921838407642; 9739746518602798643; 76153012567675767840; 73357422579900246360; 44908919827963051621; 34708837541147007332; 27662703401679007331; 52195330880526392553; 40728943149219519187; 49895952943498265411] 1283;
SciE false 428 [399398442; 65475088613053909446; 32658769491465612732; 95088414935226446366; 96537839187866738558; 47931586297648724730; 10071268723328786767; 332343471477213721; 60052970468852277435; 36708506479034328334; 59827857728599405109; 18528070095138370429; 50476938246165218467; 7926685647497471827; 28979673007824853940; 40317478337946198137; 75946880943089952496; 97607727579137178606; 55506921719422236343; 97782242065784314665; 44196150784271265561; 12308853802759303355] 1284
].
