(** * The table of binomial coefficients

    Generated from libs/e_float/src/functions/tables/A007318.cpp *)

From Coq Require Import ZArith List.
From Verif Require Import ModelTables.
Import ListNotations.
Open Scope Z_scope.

(* tables/A007318.cpp: the rows in the order of the array *)
Definition A007318 : list (list entry) :=
[
[IntE 1];
[IntE 1; IntE 1];
[IntE 1; IntE 2; IntE 1];
[IntE 1; IntE 3; IntE 3; IntE 1];
[IntE 1; IntE 4; IntE 6; IntE 4; IntE 1];
[IntE 1; IntE 5; IntE 10; IntE 10; IntE 5; IntE 1];
[IntE 1; IntE 6; IntE 15; IntE 20; IntE 15; IntE 6; IntE 1];
[IntE 1; IntE 7; IntE 21; IntE 35; IntE 35; IntE 21; IntE 7; IntE 1];
[IntE 1; IntE 8; IntE 28; IntE 56; IntE 70; IntE 56; IntE 28; IntE 8; IntE 1];
[IntE 1; IntE 9; IntE 36; IntE 84; IntE 126; IntE 126; IntE 84; IntE 36; IntE 9; IntE 1];
[IntE 1; IntE 10; IntE 45; IntE 120; IntE 210; IntE 252; IntE 210; IntE 120; IntE 45; IntE 10; IntE 1];
[IntE 1; IntE 11; IntE 55; IntE 165; IntE 330; IntE 462; IntE 462; IntE 330; IntE 165; IntE 55; IntE 11; IntE 1];
[IntE 1; IntE 12; IntE 66; IntE 220; IntE 495; IntE 792; IntE 924; IntE 792; IntE 495; IntE 220; IntE 66; IntE 12; IntE 1];
[IntE 1; IntE 13; IntE 78; IntE 286; IntE 715; IntE 1287; IntE 1716; IntE 1716; IntE 1287; IntE 715; IntE 286; IntE 78; IntE 13; IntE 1];
[IntE 1; IntE 14; IntE 91; IntE 364; IntE 1001; IntE 2002; IntE 3003; IntE 3432; IntE 3003; IntE 2002; IntE 1001; IntE 364; IntE 91; IntE 14; IntE 1];
[IntE 1; IntE 15; IntE 105; IntE 455; IntE 1365; IntE 3003; IntE 5005; IntE 6435; IntE 6435; IntE 5005; IntE 3003; IntE 1365; IntE 455; IntE 105; IntE 15; IntE 1];
[IntE 1; IntE 16; IntE 120; IntE 560; IntE 1820; IntE 4368; IntE 8008; IntE 11440; IntE 12870; IntE 11440; IntE 8008; IntE 4368; IntE 1820; IntE 560; IntE 120; IntE 16; IntE 1];
[IntE 1; IntE 17; IntE 136; IntE 680; IntE 2380; IntE 6188; IntE 12376; IntE 19448; IntE 24310; IntE 24310; IntE 19448; IntE 12376; IntE 6188; IntE 2380; IntE 680; IntE 136; IntE 17; IntE 1];
[IntE 1; IntE 18; IntE 153; IntE 816; IntE 3060; IntE 8568; IntE 18564; IntE 31824; IntE 43758; IntE 48620; IntE 43758; IntE 31824; IntE 18564; IntE 8568; IntE 3060; IntE 816; IntE 153; IntE 18; IntE 1];
[IntE 1; IntE 19; IntE 171; IntE 969; IntE 3876; IntE 11628; IntE 27132; IntE 50388; IntE 75582; IntE 92378; IntE 92378; IntE 75582; IntE 50388; IntE 27132; IntE 11628; IntE 3876; IntE 969; IntE 171; IntE 19; IntE 1];
[IntE 1; IntE 20; IntE 190; IntE 1140; IntE 4845; IntE 15504; IntE 38760; IntE 77520; IntE 125970; IntE 167960; IntE 184756; IntE 167960; IntE 125970; IntE 77520; IntE 38760; IntE 15504; IntE 4845; IntE 1140; IntE 190; IntE 20; IntE 1];
[IntE 1; IntE 21; IntE 210; IntE 1330; IntE 5985; IntE 20349; IntE 54264; IntE 116280; IntE 203490; IntE 293930; IntE 352716; IntE 352716; IntE 293930; IntE 203490; IntE 116280; IntE 54264; IntE 20349; IntE 5985; IntE 1330; IntE 210; IntE 21; IntE 1];
[IntE 1; IntE 22; IntE 231; IntE 1540; IntE 7315; IntE 26334; IntE 74613; IntE 170544; IntE 319770; IntE 497420; IntE 646646; IntE 705432; IntE 646646; IntE 497420; IntE 319770; IntE 170544; IntE 74613; IntE 26334; IntE 7315; IntE 1540; IntE 231; IntE 22; IntE 1];
[IntE 1; IntE 23; IntE 253; IntE 1771; IntE 8855; IntE 33649; IntE 100947; IntE 245157; IntE 490314; IntE 817190; IntE 1144066; IntE 1352078; IntE 1352078; IntE 1144066; IntE 817190; IntE 490314; IntE 245157; IntE 100947; IntE 33649; IntE 8855; IntE 1771; IntE 253; IntE 23; IntE 1];
[IntE 1; IntE 24; IntE 276; IntE 2024; IntE 10626; IntE 42504; IntE 134596; IntE 346104; IntE 735471; IntE 1307504; IntE 1961256; IntE 2496144; IntE 2704156; IntE 2496144; IntE 1961256; IntE 1307504; IntE 735471; IntE 346104; IntE 134596; IntE 42504; IntE 10626; IntE 2024; IntE 276; IntE 24; IntE 1];
[IntE 1; IntE 25; IntE 300; IntE 2300; IntE 12650; IntE 53130; IntE 177100; IntE 480700; IntE 1081575; IntE 2042975; IntE 3268760; IntE 4457400; IntE 5200300; IntE 5200300; IntE 4457400; IntE 3268760; IntE 2042975; IntE 1081575; IntE 480700; IntE 177100; IntE 53130; IntE 12650; IntE 2300; IntE 300; IntE 25; IntE 1];
[IntE 1; IntE 26; IntE 325; IntE 2600; IntE 14950; IntE 65780; IntE 230230; IntE 657800; IntE 1562275; IntE 3124550; IntE 5311735; IntE 7726160; IntE 9657700; IntE 10400600; IntE 9657700; IntE 7726160; IntE 5311735; IntE 3124550; IntE 1562275; IntE 657800; IntE 230230; IntE 65780; IntE 14950; IntE 2600; IntE 325; IntE 26; IntE 1];
[IntE 1; IntE 27; IntE 351; IntE 2925; IntE 17550; IntE 80730; IntE 296010; IntE 888030; IntE 2220075; IntE 4686825; IntE 8436285; IntE 13037895; IntE 17383860; IntE 20058300; IntE 20058300; IntE 17383860; IntE 13037895; IntE 8436285; IntE 4686825; IntE 2220075; IntE 888030; IntE 296010; IntE 80730; IntE 17550; IntE 2925; IntE 351; IntE 27; IntE 1];
[IntE 1; IntE 28; IntE 378; IntE 3276; IntE 20475; IntE 98280; IntE 376740; IntE 1184040; IntE 3108105; IntE 6906900; IntE 13123110; IntE 21474180; IntE 30421755; IntE 37442160; IntE 40116600; IntE 37442160; IntE 30421755; IntE 21474180; IntE 13123110; IntE 6906900; IntE 3108105; IntE 1184040; IntE 376740; IntE 98280; IntE 20475; IntE 3276; IntE 378; IntE 28; IntE 1];
[IntE 1; IntE 29; IntE 406; IntE 3654; IntE 23751; IntE 118755; IntE 475020; IntE 1560780; IntE 4292145; IntE 10015005; IntE 20030010; IntE 34597290; IntE 51895935; IntE 67863915; IntE 77558760; IntE 77558760; IntE 67863915; IntE 51895935; IntE 34597290; IntE 20030010; IntE 10015005; IntE 4292145; IntE 1560780; IntE 475020; IntE 118755; IntE 23751; IntE 3654; IntE 406; IntE 29; IntE 1];
[IntE 1; IntE 30; IntE 435; IntE 4060; IntE 27405; IntE 142506; IntE 593775; IntE 2035800; IntE 5852925; IntE 14307150; IntE 30045015; IntE 54627300; IntE 86493225; IntE 119759850; IntE 145422675; IntE 155117520; IntE 145422675; IntE 119759850; IntE 86493225; IntE 54627300; IntE 30045015; IntE 14307150; IntE 5852925; IntE 2035800; IntE 593775; IntE 142506; IntE 27405; IntE 4060; IntE 435; IntE 30; IntE 1];
[IntE 1; IntE 31; IntE 465; IntE 4495; IntE 31465; IntE 169911; IntE 736281; IntE 2629575; IntE 7888725; IntE 20160075; IntE 44352165; IntE 84672315; IntE 141120525; IntE 206253075; IntE 265182525; IntE 300540195; IntE 300540195; IntE 265182525; IntE 206253075; IntE 141120525; IntE 84672315; IntE 44352165; IntE 20160075; IntE 7888725; IntE 2629575; IntE 736281; IntE 169911; IntE 31465; IntE 4495; IntE 465; IntE 31; IntE 1];
[IntE 1; IntE 32; IntE 496; IntE 4960; IntE 35960; IntE 201376; IntE 906192; IntE 3365856; IntE 10518300; IntE 28048800; IntE 64512240; IntE 129024480; IntE 225792840; IntE 347373600; IntE 471435600; IntE 565722720; IntE 601080390; IntE 565722720; IntE 471435600; IntE 347373600; IntE 225792840; IntE 129024480; IntE 64512240; IntE 28048800; IntE 10518300; IntE 3365856; IntE 906192; IntE 201376; IntE 35960; IntE 4960; IntE 496; IntE 32; IntE 1];
[IntE 1; IntE 33; IntE 528; IntE 5456; IntE 40920; IntE 237336; IntE 1107568; IntE 4272048; IntE 13884156; IntE 38567100; IntE 92561040; IntE 193536720; IntE 354817320; IntE 573166440; IntE 818809200; IntE 1037158320; IntE 1166803110; IntE 1166803110; IntE 1037158320; IntE 818809200; IntE 573166440; IntE 354817320; IntE 193536720; IntE 92561040; IntE 38567100; IntE 13884156; IntE 4272048; IntE 1107568; IntE 237336; IntE 40920; IntE 5456; IntE 528; IntE 33; IntE 1];
[IntE 1; IntE 34; IntE 561; IntE 5984; IntE 46376; IntE 278256; IntE 1344904; IntE 5379616; IntE 18156204; IntE 52451256; IntE 131128140; IntE 286097760; IntE 548354040; IntE 927983760; IntE 1391975640; IntE 1855967520; IntE 2203961430; IntE 2333606220; IntE 2203961430; IntE 1855967520; IntE 1391975640; IntE 927983760; IntE 548354040; IntE 286097760; IntE 131128140; IntE 52451256; IntE 18156204; IntE 5379616; IntE 1344904; IntE 278256; IntE 46376; IntE 5984; IntE 561; IntE 34; IntE 1];
[IntE 1; IntE 35; IntE 595; IntE 6545; IntE 52360; IntE 324632; IntE 1623160; IntE 6724520; IntE 23535820; IntE 70607460; IntE 183579396; IntE 417225900; IntE 834451800; IntE 1476337800; IntE 2319959400; IntE 3247943160; IntE 4059928950; IntE 4537567650; IntE 4537567650; IntE 4059928950; IntE 3247943160; IntE 2319959400; IntE 1476337800; IntE 834451800; IntE 417225900; IntE 183579396; IntE 70607460; IntE 23535820; IntE 6724520; IntE 1623160; IntE 324632; IntE 52360; IntE 6545; IntE 595; IntE 35; IntE 1];
[IntE 1; IntE 36; IntE 630; IntE 7140; IntE 58905; IntE 376992; IntE 1947792; IntE 8347680; IntE 30260340; IntE 94143280; IntE 254186856; IntE 600805296; IntE 1251677700; IntE 2310789600; IntE 3796297200; IntE 5567902560; IntE 7307872110; IntE 8597496600; IntE 9075135300; IntE 8597496600; IntE 7307872110; IntE 5567902560; IntE 3796297200; IntE 2310789600; IntE 1251677700; IntE 600805296; IntE 254186856; IntE 94143280; IntE 30260340; IntE 8347680; IntE 1947792; IntE 376992; IntE 58905; IntE 7140; IntE 630; IntE 36; IntE 1];
[IntE 1; IntE 37; IntE 666; IntE 7770; IntE 66045; IntE 435897; IntE 2324784; IntE 10295472; IntE 38608020; IntE 124403620; IntE 348330136; IntE 854992152; IntE 1852482996; IntE 3562467300; IntE 6107086800; IntE 9364199760; IntE 12875774670; IntE 15905368710; IntE 17672631900; IntE 17672631900; IntE 15905368710; IntE 12875774670; IntE 9364199760; IntE 6107086800; IntE 3562467300; IntE 1852482996; IntE 854992152; IntE 348330136; IntE 124403620; IntE 38608020; IntE 10295472; IntE 2324784; IntE 435897; IntE 66045; IntE 7770; IntE 666; IntE 37; IntE 1];
[IntE 1; IntE 38; IntE 703; IntE 8436; IntE 73815; IntE 501942; IntE 2760681; IntE 12620256; IntE 48903492; IntE 163011640; IntE 472733756; IntE 1203322288; IntE 2707475148; IntE 5414950296; IntE 9669554100; IntE 15471286560; IntE 22239974430; IntE 28781143380; IntE 33578000610; IntE 35345263800; IntE 33578000610; IntE 28781143380; IntE 22239974430; IntE 15471286560; IntE 9669554100; IntE 5414950296; IntE 2707475148; IntE 1203322288; IntE 472733756; IntE 163011640; IntE 48903492; IntE 12620256; IntE 2760681; IntE 501942; IntE 73815; IntE 8436; IntE 703; IntE 38; IntE 1];
[IntE 1; IntE 39; IntE 741; IntE 9139; IntE 82251; IntE 575757; IntE 3262623; IntE 15380937; IntE 61523748; IntE 211915132; IntE 635745396; IntE 1676056044; IntE 3910797436; IntE 8122425444; IntE 15084504396; IntE 25140840660; IntE 37711260990; IntE 51021117810; IntE 62359143990; IntE 68923264410; IntE 68923264410; IntE 62359143990; IntE 51021117810; IntE 37711260990; IntE 25140840660; IntE 15084504396; IntE 8122425444; IntE 3910797436; IntE 1676056044; IntE 635745396; IntE 211915132; IntE 61523748; IntE 15380937; IntE 3262623; IntE 575757; IntE 82251; IntE 9139; IntE 741; IntE 39; IntE 1];
[IntE 1; IntE 40; IntE 780; IntE 9880; IntE 91390; IntE 658008; IntE 3838380; IntE 18643560; IntE 76904685; IntE 273438880; IntE 847660528; IntE 2311801440; IntE 5586853480; IntE 12033222880; IntE 23206929840; IntE 40225345056; IntE 62852101650; IntE 88732378800; IntE 113380261800; IntE 131282408400; IntE 137846528820; IntE 131282408400; IntE 113380261800; IntE 88732378800; IntE 62852101650; IntE 40225345056; IntE 23206929840; IntE 12033222880; IntE 5586853480; IntE 2311801440; IntE 847660528; IntE 273438880; IntE 76904685; IntE 18643560; IntE 3838380; IntE 658008; IntE 91390; IntE 9880; IntE 780; IntE 40; IntE 1];
[IntE 1; IntE 41; IntE 820; IntE 10660; IntE 101270; IntE 749398; IntE 4496388; IntE 22481940; IntE 95548245; IntE 350343565; IntE 1121099408; IntE 3159461968; IntE 7898654920; IntE 17620076360; IntE 35240152720; IntE 63432274896; IntE 103077446706; IntE 151584480450; IntE 202112640600; IntE 244662670200; IntE 269128937220; IntE 269128937220; IntE 244662670200; IntE 202112640600; IntE 151584480450; IntE 103077446706; IntE 63432274896; IntE 35240152720; IntE 17620076360; IntE 7898654920; IntE 3159461968; IntE 1121099408; IntE 350343565; IntE 95548245; IntE 22481940; IntE 4496388; IntE 749398; IntE 101270; IntE 10660; IntE 820; IntE 41; IntE 1];
[IntE 1; IntE 42; IntE 861; IntE 11480; IntE 111930; IntE 850668; IntE 5245786; IntE 26978328; IntE 118030185; IntE 445891810; IntE 1471442973; IntE 4280561376; IntE 11058116888; IntE 25518731280; IntE 52860229080; IntE 98672427616; IntE 166509721602; IntE 254661927156; IntE 353697121050; IntE 446775310800; IntE 513791607420; IntE 538257874440; IntE 513791607420; IntE 446775310800; IntE 353697121050; IntE 254661927156; IntE 166509721602; IntE 98672427616; IntE 52860229080; IntE 25518731280; IntE 11058116888; IntE 4280561376; IntE 1471442973; IntE 445891810; IntE 118030185; IntE 26978328; IntE 5245786; IntE 850668; IntE 111930; IntE 11480; IntE 861; IntE 42; IntE 1];
[IntE 1; IntE 43; IntE 903; IntE 12341; IntE 123410; IntE 962598; IntE 6096454; IntE 32224114; IntE 145008513; IntE 563921995; IntE 1917334783; IntE 5752004349; IntE 15338678264; IntE 36576848168; IntE 78378960360; IntE 151532656696; IntE 265182149218; IntE 421171648758; IntE 608359048206; IntE 800472431850; IntE 960566918220; IntE 1052049481860; IntE 1052049481860; IntE 960566918220; IntE 800472431850; IntE 608359048206; IntE 421171648758; IntE 265182149218; IntE 151532656696; IntE 78378960360; IntE 36576848168; IntE 15338678264; IntE 5752004349; IntE 1917334783; IntE 563921995; IntE 145008513; IntE 32224114; IntE 6096454; IntE 962598; IntE 123410; IntE 12341; IntE 903; IntE 43; IntE 1];
[IntE 1; IntE 44; IntE 946; IntE 13244; IntE 135751; IntE 1086008; IntE 7059052; IntE 38320568; IntE 177232627; IntE 708930508; IntE 2481256778; IntE 7669339132; IntE 21090682613; IntE 51915526432; IntE 114955808528; IntE 229911617056; IntE 416714805914; IntE 686353797976; IntE 1029530696964; IntE 1408831480056; IntE 1761039350070; IntE 2012616400080; IntE 2104098963720; IntE 2012616400080; IntE 1761039350070; IntE 1408831480056; IntE 1029530696964; IntE 686353797976; IntE 416714805914; IntE 229911617056; IntE 114955808528; IntE 51915526432; IntE 21090682613; IntE 7669339132; IntE 2481256778; IntE 708930508; IntE 177232627; IntE 38320568; IntE 7059052; IntE 1086008; IntE 135751; IntE 13244; IntE 946; IntE 44; IntE 1];
[IntE 1; IntE 45; IntE 990; IntE 14190; IntE 148995; IntE 1221759; IntE 8145060; IntE 45379620; IntE 215553195; IntE 886163135; IntE 3190187286; IntE 10150595910; IntE 28760021745; IntE 73006209045; IntE 166871334960; IntE 344867425584; IntE 646626422970; IntE 1103068603890; IntE 1715884494940; IntE 2438362177020; IntE 3169870830126; IntE 3773655750150; IntE 4116715363800; IntE 4116715363800; IntE 3773655750150; IntE 3169870830126; IntE 2438362177020; IntE 1715884494940; IntE 1103068603890; IntE 646626422970; IntE 344867425584; IntE 166871334960; IntE 73006209045; IntE 28760021745; IntE 10150595910; IntE 3190187286; IntE 886163135; IntE 215553195; IntE 45379620; IntE 8145060; IntE 1221759; IntE 148995; IntE 14190; IntE 990; IntE 45; IntE 1];
[IntE 1; IntE 46; IntE 1035; IntE 15180; IntE 163185; IntE 1370754; IntE 9366819; IntE 53524680; IntE 260932815; IntE 1101716330; IntE 4076350421; IntE 13340783196; IntE 38910617655; IntE 101766230790; IntE 239877544005; IntE 511738760544; IntE 991493848554; IntE 1749695026860; IntE 2818953098830; IntE 4154246671960; IntE 5608233007146; IntE 6943526580276; IntE 7890371113950; IntE 8233430727600; IntE 7890371113950; IntE 6943526580276; IntE 5608233007146; IntE 4154246671960; IntE 2818953098830; IntE 1749695026860; IntE 991493848554; IntE 511738760544; IntE 239877544005; IntE 101766230790; IntE 38910617655; IntE 13340783196; IntE 4076350421; IntE 1101716330; IntE 260932815; IntE 53524680; IntE 9366819; IntE 1370754; IntE 163185; IntE 15180; IntE 1035; IntE 46; IntE 1];
[IntE 1; IntE 47; IntE 1081; IntE 16215; IntE 178365; IntE 1533939; IntE 10737573; IntE 62891499; IntE 314457495; IntE 1362649145; IntE 5178066751; IntE 17417133617; IntE 52251400851; IntE 140676848445; IntE 341643774795; IntE 751616304549; IntE 1503232609098; IntE 2741188875414; IntE 4568648125690; IntE 6973199770790; IntE 9762479679106; IntE 12551759587422; IntE 14833897694226; IntE 16123801841550; IntE 16123801841550; IntE 14833897694226; IntE 12551759587422; IntE 9762479679106; IntE 6973199770790; IntE 4568648125690; IntE 2741188875414; IntE 1503232609098; IntE 751616304549; IntE 341643774795; IntE 140676848445; IntE 52251400851; IntE 17417133617; IntE 5178066751; IntE 1362649145; IntE 314457495; IntE 62891499; IntE 10737573; IntE 1533939; IntE 178365; IntE 16215; IntE 1081; IntE 47; IntE 1];
[IntE 1; IntE 48; IntE 1128; IntE 17296; IntE 194580; IntE 1712304; IntE 12271512; IntE 73629072; IntE 377348994; IntE 1677106640; IntE 6540715896; IntE 22595200368; IntE 69668534468; IntE 192928249296; IntE 482320623240; IntE 1093260079344; IntE 2254848913647; IntE 4244421484512; IntE 7309837001104; IntE 11541847896480; IntE 16735679449896; IntE 22314239266528; IntE 27385657281648; IntE 30957699535776; IntE 32247603683100; IntE 30957699535776; IntE 27385657281648; IntE 22314239266528; IntE 16735679449896; IntE 11541847896480; IntE 7309837001104; IntE 4244421484512; IntE 2254848913647; IntE 1093260079344; IntE 482320623240; IntE 192928249296; IntE 69668534468; IntE 22595200368; IntE 6540715896; IntE 1677106640; IntE 377348994; IntE 73629072; IntE 12271512; IntE 1712304; IntE 194580; IntE 17296; IntE 1128; IntE 48; IntE 1];
[IntE 1; IntE 49; IntE 1176; IntE 18424; IntE 211876; IntE 1906884; IntE 13983816; IntE 85900584; IntE 450978066; IntE 2054455634; IntE 8217822536; IntE 29135916264; IntE 92263734836; IntE 262596783764; IntE 675248872536; IntE 1575580702584; IntE 3348108992991; IntE 6499270398159; IntE 11554258485616; IntE 18851684897584; IntE 28277527346376; IntE 39049918716424; IntE 49699896548176; IntE 58343356817424; IntE 63205303218876; IntE 63205303218876; IntE 58343356817424; IntE 49699896548176; IntE 39049918716424; IntE 28277527346376; IntE 18851684897584; IntE 11554258485616; IntE 6499270398159; IntE 3348108992991; IntE 1575580702584; IntE 675248872536; IntE 262596783764; IntE 92263734836; IntE 29135916264; IntE 8217822536; IntE 2054455634; IntE 450978066; IntE 85900584; IntE 13983816; IntE 1906884; IntE 211876; IntE 18424; IntE 1176; IntE 49; IntE 1];
[IntE 1; IntE 50; IntE 1225; IntE 19600; IntE 230300; IntE 2118760; IntE 15890700; IntE 99884400; IntE 536878650; IntE 2505433700; IntE 10272278170; IntE 37353738800; IntE 121399651100; IntE 354860518600; IntE 937845656300; IntE 2250829575120; IntE 4923689695575; IntE 9847379391150; IntE 18053528883775; IntE 30405943383200; IntE 47129212243960; IntE 67327446062800; IntE 88749815264600; IntE 108043253365600; IntE 121548660036300; IntE 126410606437752; IntE 121548660036300; IntE 108043253365600; IntE 88749815264600; IntE 67327446062800; IntE 47129212243960; IntE 30405943383200; IntE 18053528883775; IntE 9847379391150; IntE 4923689695575; IntE 2250829575120; IntE 937845656300; IntE 354860518600; IntE 121399651100; IntE 37353738800; IntE 10272278170; IntE 2505433700; IntE 536878650; IntE 99884400; IntE 15890700; IntE 2118760; IntE 230300; IntE 19600; IntE 1225; IntE 50; IntE 1];
[IntE 1; IntE 51; IntE 1275; IntE 20825; IntE 249900; IntE 2349060; IntE 18009460; IntE 115775100; IntE 636763050; IntE 3042312350; IntE 12777711870; IntE 47626016970; IntE 158753389900; IntE 476260169700; IntE 1292706174900; IntE 3188675231420; IntE 7174519270695; IntE 14771069086725; IntE 27900908274925; IntE 48459472266975; IntE 77535155627160; IntE 114456658306760; IntE 156077261327400; IntE 196793068630200; IntE 229591913401900; IntE 247959266474052; IntE 247959266474052; IntE 229591913401900; IntE 196793068630200; IntE 156077261327400; IntE 114456658306760; IntE 77535155627160; IntE 48459472266975; IntE 27900908274925; IntE 14771069086725; IntE 7174519270695; IntE 3188675231420; IntE 1292706174900; IntE 476260169700; IntE 158753389900; IntE 47626016970; IntE 12777711870; IntE 3042312350; IntE 636763050; IntE 115775100; IntE 18009460; IntE 2349060; IntE 249900; IntE 20825; IntE 1275; IntE 51; IntE 1];
[IntE 1; IntE 52; IntE 1326; IntE 22100; IntE 270725; IntE 2598960; IntE 20358520; IntE 133784560; IntE 752538150; IntE 3679075400; IntE 15820024220; IntE 60403728840; IntE 206379406870; IntE 635013559600; IntE 1768966344600; IntE 4481381406320; IntE 10363194502115; IntE 21945588357420; IntE 42671977361650; IntE 76360380541900; IntE 125994627894135; IntE 191991813933920; IntE 270533919634160; IntE 352870329957600; IntE 426384982032100; IntE 477551179875952; IntE 495918532948104; IntE 477551179875952; IntE 426384982032100; IntE 352870329957600; IntE 270533919634160; IntE 191991813933920; IntE 125994627894135; IntE 76360380541900; IntE 42671977361650; IntE 21945588357420; IntE 10363194502115; IntE 4481381406320; IntE 1768966344600; IntE 635013559600; IntE 206379406870; IntE 60403728840; IntE 15820024220; IntE 3679075400; IntE 752538150; IntE 133784560; IntE 20358520; IntE 2598960; IntE 270725; IntE 22100; IntE 1326; IntE 52; IntE 1];
[IntE 1; IntE 53; IntE 1378; IntE 23426; IntE 292825; IntE 2869685; IntE 22957480; IntE 154143080; IntE 886322710; IntE 4431613550; IntE 19499099620; IntE 76223753060; IntE 266783135710; IntE 841392966470; IntE 2403979904200; IntE 6250347750920; IntE 14844575908435; IntE 32308782859535; IntE 64617565719070; IntE 119032357903550; IntE 202355008436035; IntE 317986441828055; IntE 462525733568080; IntE 623404249591760; IntE 779255311989700; IntE 903936161908052; IntE 973469712824056; IntE 973469712824056; IntE 903936161908052; IntE 779255311989700; IntE 623404249591760; IntE 462525733568080; IntE 317986441828055; IntE 202355008436035; IntE 119032357903550; IntE 64617565719070; IntE 32308782859535; IntE 14844575908435; IntE 6250347750920; IntE 2403979904200; IntE 841392966470; IntE 266783135710; IntE 76223753060; IntE 19499099620; IntE 4431613550; IntE 886322710; IntE 154143080; IntE 22957480; IntE 2869685; IntE 292825; IntE 23426; IntE 1378; IntE 53; IntE 1];
[IntE 1; IntE 54; IntE 1431; IntE 24804; IntE 316251; IntE 3162510; IntE 25827165; IntE 177100560; IntE 1040465790; IntE 5317936260; IntE 23930713170; IntE 95722852680; IntE 343006888770; IntE 1108176102180; IntE 3245372870670; IntE 8654327655120; IntE 21094923659355; IntE 47153358767970; IntE 96926348578605; IntE 183649923622620; IntE 321387366339585; IntE 520341450264090; IntE 780512175396135; IntE 1085929983159840; IntE 1402659561581460; IntE 1683191473897752; IntE 1877405874732108; IntE 1946939425648112; IntE 1877405874732108; IntE 1683191473897752; IntE 1402659561581460; IntE 1085929983159840; IntE 780512175396135; IntE 520341450264090; IntE 321387366339585; IntE 183649923622620; IntE 96926348578605; IntE 47153358767970; IntE 21094923659355; IntE 8654327655120; IntE 3245372870670; IntE 1108176102180; IntE 343006888770; IntE 95722852680; IntE 23930713170; IntE 5317936260; IntE 1040465790; IntE 177100560; IntE 25827165; IntE 3162510; IntE 316251; IntE 24804; IntE 1431; IntE 54; IntE 1];
[IntE 1; IntE 55; IntE 1485; IntE 26235; IntE 341055; IntE 3478761; IntE 28989675; IntE 202927725; IntE 1217566350; IntE 6358402050; IntE 29248649430; IntE 119653565850; IntE 438729741450; IntE 1451182990950; IntE 4353548972850; IntE 11899700525790; IntE 29749251314475; IntE 68248282427325; IntE 144079707346575; IntE 280576272201225; IntE 505037289962205; IntE 841728816603675; IntE 1300853625660225; IntE 1866442158555975; IntE 2488589544741300; IntE 3085851035479212; IntE 3560597348629860; IntE 3824345300380220; IntE 3824345300380220; IntE 3560597348629860; IntE 3085851035479212; IntE 2488589544741300; IntE 1866442158555975; IntE 1300853625660225; IntE 841728816603675; IntE 505037289962205; IntE 280576272201225; IntE 144079707346575; IntE 68248282427325; IntE 29749251314475; IntE 11899700525790; IntE 4353548972850; IntE 1451182990950; IntE 438729741450; IntE 119653565850; IntE 29248649430; IntE 6358402050; IntE 1217566350; IntE 202927725; IntE 28989675; IntE 3478761; IntE 341055; IntE 26235; IntE 1485; IntE 55; IntE 1];
[IntE 1; IntE 56; IntE 1540; IntE 27720; IntE 367290; IntE 3819816; IntE 32468436; IntE 231917400; IntE 1420494075; IntE 7575968400; IntE 35607051480; IntE 148902215280; IntE 558383307300; IntE 1889912732400; IntE 5804731963800; IntE 16253249498640; IntE 41648951840265; IntE 97997533741800; IntE 212327989773900; IntE 424655979547800; IntE 785613562163430; IntE 1346766106565880; IntE 2142582442263900; IntE 3167295784216200; IntE 4355031703297275; IntE 5574440580220512; IntE 6646448384109072; IntE 7384942649010080; IntE 7648690600760440; IntE 7384942649010080; IntE 6646448384109072; IntE 5574440580220512; IntE 4355031703297275; IntE 3167295784216200; IntE 2142582442263900; IntE 1346766106565880; IntE 785613562163430; IntE 424655979547800; IntE 212327989773900; IntE 97997533741800; IntE 41648951840265; IntE 16253249498640; IntE 5804731963800; IntE 1889912732400; IntE 558383307300; IntE 148902215280; IntE 35607051480; IntE 7575968400; IntE 1420494075; IntE 231917400; IntE 32468436; IntE 3819816; IntE 367290; IntE 27720; IntE 1540; IntE 56; IntE 1];
[IntE 1; IntE 57; IntE 1596; IntE 29260; IntE 395010; IntE 4187106; IntE 36288252; IntE 264385836; IntE 1652411475; IntE 8996462475; IntE 43183019880; IntE 184509266760; IntE 707285522580; IntE 2448296039700; IntE 7694644696200; IntE 22057981462440; IntE 57902201338905; IntE 139646485582065; IntE 310325523515700; IntE 636983969321700; IntE 1210269541711230; IntE 2132379668729310; IntE 3489348548829780; IntE 5309878226480100; IntE 7522327487513475; IntE 9929472283517787; IntE 12220888964329584; IntE 14031391033119152; IntE 15033633249770520; IntE 15033633249770520; IntE 14031391033119152; IntE 12220888964329584; IntE 9929472283517787; IntE 7522327487513475; IntE 5309878226480100; IntE 3489348548829780; IntE 2132379668729310; IntE 1210269541711230; IntE 636983969321700; IntE 310325523515700; IntE 139646485582065; IntE 57902201338905; IntE 22057981462440; IntE 7694644696200; IntE 2448296039700; IntE 707285522580; IntE 184509266760; IntE 43183019880; IntE 8996462475; IntE 1652411475; IntE 264385836; IntE 36288252; IntE 4187106; IntE 395010; IntE 29260; IntE 1596; IntE 57; IntE 1];
[IntE 1; IntE 58; IntE 1653; IntE 30856; IntE 424270; IntE 4582116; IntE 40475358; IntE 300674088; IntE 1916797311; IntE 10648873950; IntE 52179482355; IntE 227692286640; IntE 891794789340; IntE 3155581562280; IntE 10142940735900; IntE 29752626158640; IntE 79960182801345; IntE 197548686920970; IntE 449972009097765; IntE 947309492837400; IntE 1847253511032930; IntE 3342649210440540; IntE 5621728217559090; IntE 8799226775309880; IntE 12832205713993575; IntE 17451799771031262; IntE 22150361247847371; IntE 26252279997448736; IntE 29065024282889672; IntE 30067266499541040; IntE 29065024282889672; IntE 26252279997448736; IntE 22150361247847371; IntE 17451799771031262; IntE 12832205713993575; IntE 8799226775309880; IntE 5621728217559090; IntE 3342649210440540; IntE 1847253511032930; IntE 947309492837400; IntE 449972009097765; IntE 197548686920970; IntE 79960182801345; IntE 29752626158640; IntE 10142940735900; IntE 3155581562280; IntE 891794789340; IntE 227692286640; IntE 52179482355; IntE 10648873950; IntE 1916797311; IntE 300674088; IntE 40475358; IntE 4582116; IntE 424270; IntE 30856; IntE 1653; IntE 58; IntE 1];
[IntE 1; IntE 59; IntE 1711; IntE 32509; IntE 455126; IntE 5006386; IntE 45057474; IntE 341149446; IntE 2217471399; IntE 12565671261; IntE 62828356305; IntE 279871768995; IntE 1119487075980; IntE 4047376351620; IntE 13298522298180; IntE 39895566894540; IntE 109712808959985; IntE 277508869722315; IntE 647520696018735; IntE 1397281501935165; IntE 2794563003870330; IntE 5189902721473470; IntE 8964377427999630; IntE 14420954992868970; IntE 21631432489303455; IntE 30284005485024837; IntE 39602161018878633; IntE 48402641245296107; IntE 55317304280338408; IntE 59132290782430712; IntE 59132290782430712; IntE 55317304280338408; IntE 48402641245296107; IntE 39602161018878633; IntE 30284005485024837; IntE 21631432489303455; IntE 14420954992868970; IntE 8964377427999630; IntE 5189902721473470; IntE 2794563003870330; IntE 1397281501935165; IntE 647520696018735; IntE 277508869722315; IntE 109712808959985; IntE 39895566894540; IntE 13298522298180; IntE 4047376351620; IntE 1119487075980; IntE 279871768995; IntE 62828356305; IntE 12565671261; IntE 2217471399; IntE 341149446; IntE 45057474; IntE 5006386; IntE 455126; IntE 32509; IntE 1711; IntE 59; IntE 1];
[IntE 1; IntE 60; IntE 1770; IntE 34220; IntE 487635; IntE 5461512; IntE 50063860; IntE 386206920; IntE 2558620845; IntE 14783142660; IntE 75394027566; IntE 342700125300; IntE 1399358844975; IntE 5166863427600; IntE 17345898649800; IntE 53194089192720; IntE 149608375854525; IntE 387221678682300; IntE 925029565741050; IntE 2044802197953900; IntE 4191844505805495; IntE 7984465725343800; IntE 14154280149473100; IntE 23385332420868600; IntE 36052387482172425; IntE 51915437974328292; IntE 69886166503903470; IntE 88004802264174740; IntE 103719945525634515; IntE 114449595062769120; IntE 118264581564861424; IntE 114449595062769120; IntE 103719945525634515; IntE 88004802264174740; IntE 69886166503903470; IntE 51915437974328292; IntE 36052387482172425; IntE 23385332420868600; IntE 14154280149473100; IntE 7984465725343800; IntE 4191844505805495; IntE 2044802197953900; IntE 925029565741050; IntE 387221678682300; IntE 149608375854525; IntE 53194089192720; IntE 17345898649800; IntE 5166863427600; IntE 1399358844975; IntE 342700125300; IntE 75394027566; IntE 14783142660; IntE 2558620845; IntE 386206920; IntE 50063860; IntE 5461512; IntE 487635; IntE 34220; IntE 1770; IntE 60; IntE 1];
[IntE 1; IntE 61; IntE 1830; IntE 35990; IntE 521855; IntE 5949147; IntE 55525372; IntE 436270780; IntE 2944827765; IntE 17341763505; IntE 90177170226; IntE 418094152866; IntE 1742058970275; IntE 6566222272575; IntE 22512762077400; IntE 70539987842520; IntE 202802465047245; IntE 536830054536825; IntE 1312251244423350; IntE 2969831763694950; IntE 6236646703759395; IntE 12176310231149295; IntE 22138745874816900; IntE 37539612570341700; IntE 59437719903041025; IntE 87967825456500717; IntE 121801604478231762; IntE 157890968768078210; IntE 191724747789809255; IntE 218169540588403635; IntE 232714176627630544; IntE 232714176627630544; IntE 218169540588403635; IntE 191724747789809255; IntE 157890968768078210; IntE 121801604478231762; IntE 87967825456500717; IntE 59437719903041025; IntE 37539612570341700; IntE 22138745874816900; IntE 12176310231149295; IntE 6236646703759395; IntE 2969831763694950; IntE 1312251244423350; IntE 536830054536825; IntE 202802465047245; IntE 70539987842520; IntE 22512762077400; IntE 6566222272575; IntE 1742058970275; IntE 418094152866; IntE 90177170226; IntE 17341763505; IntE 2944827765; IntE 436270780; IntE 55525372; IntE 5949147; IntE 521855; IntE 35990; IntE 1830; IntE 61; IntE 1];
[IntE 1; IntE 62; IntE 1891; IntE 37820; IntE 557845; IntE 6471002; IntE 61474519; IntE 491796152; IntE 3381098545; IntE 20286591270; IntE 107518933731; IntE 508271323092; IntE 2160153123141; IntE 8308281242850; IntE 29078984349975; IntE 93052749919920; IntE 273342452889765; IntE 739632519584070; IntE 1849081298960175; IntE 4282083008118300; IntE 9206478467454345; IntE 18412956934908690; IntE 34315056105966195; IntE 59678358445158600; IntE 96977332473382725; IntE 147405545359541742; IntE 209769429934732479; IntE 279692573246309972; IntE 349615716557887465; IntE 409894288378212890; IntE 450883717216034179; IntE 465428353255261088; IntE 450883717216034179; IntE 409894288378212890; IntE 349615716557887465; IntE 279692573246309972; IntE 209769429934732479; IntE 147405545359541742; IntE 96977332473382725; IntE 59678358445158600; IntE 34315056105966195; IntE 18412956934908690; IntE 9206478467454345; IntE 4282083008118300; IntE 1849081298960175; IntE 739632519584070; IntE 273342452889765; IntE 93052749919920; IntE 29078984349975; IntE 8308281242850; IntE 2160153123141; IntE 508271323092; IntE 107518933731; IntE 20286591270; IntE 3381098545; IntE 491796152; IntE 61474519; IntE 6471002; IntE 557845; IntE 37820; IntE 1891; IntE 62; IntE 1];
[IntE 1; IntE 63; IntE 1953; IntE 39711; IntE 595665; IntE 7028847; IntE 67945521; IntE 553270671; IntE 3872894697; IntE 23667689815; IntE 127805525001; IntE 615790256823; IntE 2668424446233; IntE 10468434365991; IntE 37387265592825; IntE 122131734269895; IntE 366395202809685; IntE 1012974972473835; IntE 2588713818544245; IntE 6131164307078475; IntE 13488561475572645; IntE 27619435402363035; IntE 52728013040874885; IntE 93993414551124795; IntE 156655690918541325; IntE 244382877832924467; IntE 357174975294274221; IntE 489462003181042451; IntE 629308289804197437; IntE 759510004936100355; IntE 860778005594247069; IntE 916312070471295267; IntE 916312070471295267; IntE 860778005594247069; IntE 759510004936100355; IntE 629308289804197437; IntE 489462003181042451; IntE 357174975294274221; IntE 244382877832924467; IntE 156655690918541325; IntE 93993414551124795; IntE 52728013040874885; IntE 27619435402363035; IntE 13488561475572645; IntE 6131164307078475; IntE 2588713818544245; IntE 1012974972473835; IntE 366395202809685; IntE 122131734269895; IntE 37387265592825; IntE 10468434365991; IntE 2668424446233; IntE 615790256823; IntE 127805525001; IntE 23667689815; IntE 3872894697; IntE 553270671; IntE 67945521; IntE 7028847; IntE 595665; IntE 39711; IntE 1953; IntE 63; IntE 1];
[IntE 1; IntE 64; IntE 2016; IntE 41664; IntE 635376; IntE 7624512; IntE 74974368; IntE 621216192; IntE 4426165368; IntE 27540584512; IntE 151473214816; IntE 743595781824; IntE 3284214703056; IntE 13136858812224; IntE 47855699958816; IntE 159518999862720; IntE 488526937079580; IntE 1379370175283520; IntE 3601688791018080; IntE 8719878125622720; IntE 19619725782651120; IntE 41107996877935680; IntE 80347448443237920; IntE 146721427591999680; IntE 250649105469666120; IntE 401038568751465792; IntE 601557853127198688; IntE 846636978475316672; IntE 1118770292985239888; IntE 1388818294740297792; IntE 1620288010530347424; IntE 1777090076065542336; IntE 1832624140942590534; IntE 1777090076065542336; IntE 1620288010530347424; IntE 1388818294740297792; IntE 1118770292985239888; IntE 846636978475316672; IntE 601557853127198688; IntE 401038568751465792; IntE 250649105469666120; IntE 146721427591999680; IntE 80347448443237920; IntE 41107996877935680; IntE 19619725782651120; IntE 8719878125622720; IntE 3601688791018080; IntE 1379370175283520; IntE 488526937079580; IntE 159518999862720; IntE 47855699958816; IntE 13136858812224; IntE 3284214703056; IntE 743595781824; IntE 151473214816; IntE 27540584512; IntE 4426165368; IntE 621216192; IntE 74974368; IntE 7624512; IntE 635376; IntE 41664; IntE 2016; IntE 64; IntE 1];
[IntE 1; IntE 65; IntE 2080; IntE 43680; IntE 677040; IntE 8259888; IntE 82598880; IntE 696190560; IntE 5047381560; IntE 31966749880; IntE 179013799328; IntE 895068996640; IntE 4027810484880; IntE 16421073515280; IntE 60992558771040; IntE 207374699821536; IntE 648045936942300; IntE 1867897112363100; IntE 4981058966301600; IntE 12321566916640800; IntE 28339603908273840; IntE 60727722660586800; IntE 121455445321173600; IntE 227068876035237600; IntE 397370533061665800; IntE 651687674221131912; IntE 1002596421878664480; IntE 1448194831602515360; IntE 1965407271460556560; IntE 2507588587725537680; IntE 3009106305270645216; IntE 3397378086595889760; IntE 3609714217008132870; IntE 3609714217008132870; IntE 3397378086595889760; IntE 3009106305270645216; IntE 2507588587725537680; IntE 1965407271460556560; IntE 1448194831602515360; IntE 1002596421878664480; IntE 651687674221131912; IntE 397370533061665800; IntE 227068876035237600; IntE 121455445321173600; IntE 60727722660586800; IntE 28339603908273840; IntE 12321566916640800; IntE 4981058966301600; IntE 1867897112363100; IntE 648045936942300; IntE 207374699821536; IntE 60992558771040; IntE 16421073515280; IntE 4027810484880; IntE 895068996640; IntE 179013799328; IntE 31966749880; IntE 5047381560; IntE 696190560; IntE 82598880; IntE 8259888; IntE 677040; IntE 43680; IntE 2080; IntE 65; IntE 1];
[IntE 1; IntE 66; IntE 2145; IntE 45760; IntE 720720; IntE 8936928; IntE 90858768; IntE 778789440; IntE 5743572120; IntE 37014131440; IntE 210980549208; IntE 1074082795968; IntE 4922879481520; IntE 20448884000160; IntE 77413632286320; IntE 268367258592576; IntE 855420636763836; IntE 2515943049305400; IntE 6848956078664700; IntE 17302625882942400; IntE 40661170824914640; IntE 89067326568860640; IntE 182183167981760400; IntE 348524321356411200; IntE 624439409096903400; IntE 1049058207282797712; IntE 1654284096099796392; IntE 2450791253481179840; IntE 3413602103063071920; IntE 4472995859186094240; IntE 5516694892996182896; IntE 6406484391866534976; IntE 7007092303604022630; IntE 7219428434016265740; IntE 7007092303604022630; IntE 6406484391866534976; IntE 5516694892996182896; IntE 4472995859186094240; IntE 3413602103063071920; IntE 2450791253481179840; IntE 1654284096099796392; IntE 1049058207282797712; IntE 624439409096903400; IntE 348524321356411200; IntE 182183167981760400; IntE 89067326568860640; IntE 40661170824914640; IntE 17302625882942400; IntE 6848956078664700; IntE 2515943049305400; IntE 855420636763836; IntE 268367258592576; IntE 77413632286320; IntE 20448884000160; IntE 4922879481520; IntE 1074082795968; IntE 210980549208; IntE 37014131440; IntE 5743572120; IntE 778789440; IntE 90858768; IntE 8936928; IntE 720720; IntE 45760; IntE 2145; IntE 66; IntE 1];
[IntE 1; IntE 67; IntE 2211; IntE 47905; IntE 766480; IntE 9657648; IntE 99795696; IntE 869648208; IntE 6522361560; IntE 42757703560; IntE 247994680648; IntE 1285063345176; IntE 5996962277488; IntE 25371763481680; IntE 97862516286480; IntE 345780890878896; IntE 1123787895356412; IntE 3371363686069236; IntE 9364899127970100; IntE 24151581961607100; IntE 57963796707857040; IntE 129728497393775280; IntE 271250494550621040; IntE 530707489338171600; IntE 972963730453314600; IntE 1673497616379701112; IntE 2703342303382594104; IntE 4105075349580976232; IntE 5864393356544251760; IntE 7886597962249166160; StrE false 19 [9989690752182277136]; StrE false 20 [11923179284862717872]; StrE false 20 [13413576695470557606]; StrE false 20 [14226520737620288370]; StrE false 20 [14226520737620288370]; StrE false 20 [13413576695470557606]; StrE false 20 [11923179284862717872]; StrE false 19 [9989690752182277136]; IntE 7886597962249166160; IntE 5864393356544251760; IntE 4105075349580976232; IntE 2703342303382594104; IntE 1673497616379701112; IntE 972963730453314600; IntE 530707489338171600; IntE 271250494550621040; IntE 129728497393775280; IntE 57963796707857040; IntE 24151581961607100; IntE 9364899127970100; IntE 3371363686069236; IntE 1123787895356412; IntE 345780890878896; IntE 97862516286480; IntE 25371763481680; IntE 5996962277488; IntE 1285063345176; IntE 247994680648; IntE 42757703560; IntE 6522361560; IntE 869648208; IntE 99795696; IntE 9657648; IntE 766480; IntE 47905; IntE 2211; IntE 67; IntE 1];
[IntE 1; IntE 68; IntE 2278; IntE 50116; IntE 814385; IntE 10424128; IntE 109453344; IntE 969443904; IntE 7392009768; IntE 49280065120; IntE 290752384208; IntE 1533058025824; IntE 7282025622664; IntE 31368725759168; IntE 123234279768160; IntE 443643407165376; IntE 1469568786235308; IntE 4495151581425648; IntE 12736262814039336; IntE 33516481089577200; IntE 82115378669464140; IntE 187692294101632320; IntE 400978991944396320; IntE 801957983888792640; IntE 1503671219791486200; IntE 2646461346833015712; IntE 4376839919762295216; IntE 6808417652963570336; StrE false 19 [9969468706125227992]; StrE false 20 [13750991318793417920]; StrE false 20 [17876288714431443296]; StrE false 20 [21912870037044995008]; StrE false 20 [25336755980333275478]; StrE false 20 [27640097433090845976]; StrE false 20 [28453041475240576740]; StrE false 20 [27640097433090845976]; StrE false 20 [25336755980333275478]; StrE false 20 [21912870037044995008]; StrE false 20 [17876288714431443296]; StrE false 20 [13750991318793417920]; StrE false 19 [9969468706125227992]; IntE 6808417652963570336; IntE 4376839919762295216; IntE 2646461346833015712; IntE 1503671219791486200; IntE 801957983888792640; IntE 400978991944396320; IntE 187692294101632320; IntE 82115378669464140; IntE 33516481089577200; IntE 12736262814039336; IntE 4495151581425648; IntE 1469568786235308; IntE 443643407165376; IntE 123234279768160; IntE 31368725759168; IntE 7282025622664; IntE 1533058025824; IntE 290752384208; IntE 49280065120; IntE 7392009768; IntE 969443904; IntE 109453344; IntE 10424128; IntE 814385; IntE 50116; IntE 2278; IntE 68; IntE 1];
[IntE 1; IntE 69; IntE 2346; IntE 52394; IntE 864501; IntE 11238513; IntE 119877472; IntE 1078897248; IntE 8361453672; IntE 56672074888; IntE 340032449328; IntE 1823810410032; IntE 8815083648488; IntE 38650751381832; IntE 154603005527328; IntE 566877686933536; IntE 1913212193400684; IntE 5964720367660956; IntE 17231414395464984; IntE 46252743903616536; IntE 115631859759041340; IntE 269807672771096460; IntE 588671286046028640; IntE 1202936975833188960; IntE 2305629203680278840; IntE 4150132566624501912; IntE 7023301266595310928; StrE false 20 [11185257572725865552]; StrE false 20 [16777886359088798328]; StrE false 20 [23720460024918645912]; StrE false 20 [31627280033224861216]; StrE false 20 [39789158751476438304]; StrE false 20 [47249626017378270486]; StrE false 20 [52976853413424121454]; StrE false 20 [56093138908331422716]; StrE false 20 [56093138908331422716]; StrE false 20 [52976853413424121454]; StrE false 20 [47249626017378270486]; StrE false 20 [39789158751476438304]; StrE false 20 [31627280033224861216]; StrE false 20 [23720460024918645912]; StrE false 20 [16777886359088798328]; StrE false 20 [11185257572725865552]; IntE 7023301266595310928; IntE 4150132566624501912; IntE 2305629203680278840; IntE 1202936975833188960; IntE 588671286046028640; IntE 269807672771096460; IntE 115631859759041340; IntE 46252743903616536; IntE 17231414395464984; IntE 5964720367660956; IntE 1913212193400684; IntE 566877686933536; IntE 154603005527328; IntE 38650751381832; IntE 8815083648488; IntE 1823810410032; IntE 340032449328; IntE 56672074888; IntE 8361453672; IntE 1078897248; IntE 119877472; IntE 11238513; IntE 864501; IntE 52394; IntE 2346; IntE 69; IntE 1];
[IntE 1; IntE 70; IntE 2415; IntE 54740; IntE 916895; IntE 12103014; IntE 131115985; IntE 1198774720; IntE 9440350920; IntE 65033528560; IntE 396704524216; IntE 2163842859360; IntE 10638894058520; IntE 47465835030320; IntE 193253756909160; IntE 721480692460864; IntE 2480089880334220; IntE 7877932561061640; IntE 23196134763125940; IntE 63484158299081520; IntE 161884603662657876; IntE 385439532530137800; IntE 858478958817125100; IntE 1791608261879217600; IntE 3508566179513467800; IntE 6455761770304780752; StrE false 20 [11173433833219812840]; StrE false 20 [18208558839321176480]; StrE false 20 [27963143931814663880]; StrE false 20 [40498346384007444240]; StrE false 20 [55347740058143507128]; StrE false 20 [71416438784701299520]; StrE false 20 [87038784768854708790]; StrE false 21 [1; 226479430802391940]; StrE false 21 [1; 9069992321755544170]; StrE false 21 [1; 12186277816662845432]; StrE false 21 [1; 9069992321755544170]; StrE false 21 [1; 226479430802391940]; StrE false 20 [87038784768854708790]; StrE false 20 [71416438784701299520]; StrE false 20 [55347740058143507128]; StrE false 20 [40498346384007444240]; StrE false 20 [27963143931814663880]; StrE false 20 [18208558839321176480]; StrE false 20 [11173433833219812840]; IntE 6455761770304780752; IntE 3508566179513467800; IntE 1791608261879217600; IntE 858478958817125100; IntE 385439532530137800; IntE 161884603662657876; IntE 63484158299081520; IntE 23196134763125940; IntE 7877932561061640; IntE 2480089880334220; IntE 721480692460864; IntE 193253756909160; IntE 47465835030320; IntE 10638894058520; IntE 2163842859360; IntE 396704524216; IntE 65033528560; IntE 9440350920; IntE 1198774720; IntE 131115985; IntE 12103014; IntE 916895; IntE 54740; IntE 2415; IntE 70; IntE 1];
[IntE 1; IntE 71; IntE 2485; IntE 57155; IntE 971635; IntE 13019909; IntE 143218999; IntE 1329890705; IntE 10639125640; IntE 74473879480; IntE 461738052776; IntE 2560547383576; IntE 12802736917880; IntE 58104729088840; IntE 240719591939480; IntE 914734449370024; IntE 3201570572795084; IntE 10358022441395860; IntE 31074067324187580; IntE 86680293062207460; IntE 225368761961739396; IntE 547324136192795676; IntE 1243918491347262900; IntE 2650087220696342700; IntE 5300174441392685400; StrE false 19 [9964327949818248552]; StrE false 20 [17629195603524593592]; StrE false 20 [29381992672540989320]; StrE false 20 [46171702771135840360]; StrE false 20 [68461490315822108120]; StrE false 20 [95846086442150951368]; StrE false 21 [1; 26764178842844806648]; StrE false 21 [1; 58455223553556008310]; StrE false 21 [1; 87265264199657100730]; StrE false 21 [2; 9296471752557936110]; StrE false 21 [2; 21256270138418389602]; StrE false 21 [2; 21256270138418389602]; StrE false 21 [2; 9296471752557936110]; StrE false 21 [1; 87265264199657100730]; StrE false 21 [1; 58455223553556008310]; StrE false 21 [1; 26764178842844806648]; StrE false 20 [95846086442150951368]; StrE false 20 [68461490315822108120]; StrE false 20 [46171702771135840360]; StrE false 20 [29381992672540989320]; StrE false 20 [17629195603524593592]; StrE false 19 [9964327949818248552]; IntE 5300174441392685400; IntE 2650087220696342700; IntE 1243918491347262900; IntE 547324136192795676; IntE 225368761961739396; IntE 86680293062207460; IntE 31074067324187580; IntE 10358022441395860; IntE 3201570572795084; IntE 914734449370024; IntE 240719591939480; IntE 58104729088840; IntE 12802736917880; IntE 2560547383576; IntE 461738052776; IntE 74473879480; IntE 10639125640; IntE 1329890705; IntE 143218999; IntE 13019909; IntE 971635; IntE 57155; IntE 2485; IntE 71; IntE 1];
[IntE 1; IntE 72; IntE 2556; IntE 59640; IntE 1028790; IntE 13991544; IntE 156238908; IntE 1473109704; IntE 11969016345; IntE 85113005120; IntE 536211932256; IntE 3022285436352; IntE 15363284301456; IntE 70907466006720; IntE 298824321028320; IntE 1155454041309504; IntE 4116305022165108; IntE 13559593014190944; IntE 41432089765583440; IntE 117754360386395040; IntE 312049055023946856; IntE 772692898154535072; IntE 1791242627540058576; IntE 3894005712043605600; IntE 7950261662089028100; StrE false 20 [15264502391210933952]; StrE false 20 [27593523553342842144]; StrE false 20 [47011188276065582912]; StrE false 20 [75553695443676829680]; StrE false 21 [1; 14633193086957948480]; StrE false 21 [1; 64307576757973059488]; StrE false 21 [2; 22610265284995758016]; StrE false 21 [2; 85219402396400814958]; StrE false 21 [3; 45720487753213109040]; StrE false 21 [3; 96561735952215036840]; StrE false 21 [4; 30552741890976325712]; StrE false 21 [4; 42512540276836779204]; StrE false 21 [4; 30552741890976325712]; StrE false 21 [3; 96561735952215036840]; StrE false 21 [3; 45720487753213109040]; StrE false 21 [2; 85219402396400814958]; StrE false 21 [2; 22610265284995758016]; StrE false 21 [1; 64307576757973059488]; StrE false 21 [1; 14633193086957948480]; StrE false 20 [75553695443676829680]; StrE false 20 [47011188276065582912]; StrE false 20 [27593523553342842144]; StrE false 20 [15264502391210933952]; IntE 7950261662089028100; IntE 3894005712043605600; IntE 1791242627540058576; IntE 772692898154535072; IntE 312049055023946856; IntE 117754360386395040; IntE 41432089765583440; IntE 13559593014190944; IntE 4116305022165108; IntE 1155454041309504; IntE 298824321028320; IntE 70907466006720; IntE 15363284301456; IntE 3022285436352; IntE 536211932256; IntE 85113005120; IntE 11969016345; IntE 1473109704; IntE 156238908; IntE 13991544; IntE 1028790; IntE 59640; IntE 2556; IntE 72; IntE 1];
[IntE 1; IntE 73; IntE 2628; IntE 62196; IntE 1088430; IntE 15020334; IntE 170230452; IntE 1629348612; IntE 13442126049; IntE 97082021465; IntE 621324937376; IntE 3558497368608; IntE 18385569737808; IntE 86270750308176; IntE 369731787035040; IntE 1454278362337824; IntE 5271759063474612; IntE 17675898036356052; IntE 54991682779774384; IntE 159186450151978480; IntE 429803415410341896; IntE 1084741953178481928; IntE 2563935525694593648; IntE 5685248339583664176; StrE false 20 [11844267374132633700]; StrE false 20 [23214764053299962052]; StrE false 20 [42858025944553776096]; StrE false 20 [74604711829408425056]; StrE false 21 [1; 22564883719742412592]; StrE false 21 [1; 90186888530634778160]; StrE false 21 [2; 78940769844931007968]; StrE false 21 [3; 86917842042968817504]; StrE false 21 [5; 7829667681396572974]; StrE false 21 [6; 30939890149613923998]; StrE false 21 [7; 42282223705428145880]; StrE false 21 [8; 27114477843191362552]; StrE false 21 [8; 73065282167813104916]; StrE false 21 [8; 73065282167813104916]; StrE false 21 [8; 27114477843191362552]; StrE false 21 [7; 42282223705428145880]; StrE false 21 [6; 30939890149613923998]; StrE false 21 [5; 7829667681396572974]; StrE false 21 [3; 86917842042968817504]; StrE false 21 [2; 78940769844931007968]; StrE false 21 [1; 90186888530634778160]; StrE false 21 [1; 22564883719742412592]; StrE false 20 [74604711829408425056]; StrE false 20 [42858025944553776096]; StrE false 20 [23214764053299962052]; StrE false 20 [11844267374132633700]; IntE 5685248339583664176; IntE 2563935525694593648; IntE 1084741953178481928; IntE 429803415410341896; IntE 159186450151978480; IntE 54991682779774384; IntE 17675898036356052; IntE 5271759063474612; IntE 1454278362337824; IntE 369731787035040; IntE 86270750308176; IntE 18385569737808; IntE 3558497368608; IntE 621324937376; IntE 97082021465; IntE 13442126049; IntE 1629348612; IntE 170230452; IntE 15020334; IntE 1088430; IntE 62196; IntE 2628; IntE 73; IntE 1];
[IntE 1; IntE 74; IntE 2701; IntE 64824; IntE 1150626; IntE 16108764; IntE 185250786; IntE 1799579064; IntE 15071474661; IntE 110524147514; IntE 718406958841; IntE 4179822305984; IntE 21944067106416; IntE 104656320045984; IntE 456002537343216; IntE 1824010149372864; IntE 6726037425812436; IntE 22947657099830664; IntE 72667580816130436; IntE 214178132931752864; IntE 588989865562320376; IntE 1514545368588823824; IntE 3648677478873075576; IntE 8249183865278257824; StrE false 20 [17529515713716297876]; StrE false 20 [35059031427432595752]; StrE false 20 [66072789997853738148]; StrE false 21 [1; 17462737773962201152]; StrE false 21 [1; 97169595549150837648]; StrE false 21 [3; 12751772250377190752]; StrE false 21 [4; 69127658375565786128]; StrE false 21 [6; 65858611887899825472]; StrE false 21 [8; 94747509724365390478]; StrE false 22 [11; 38769557831010496972]; StrE false 22 [13; 73222113855042069878]; StrE false 22 [15; 69396701548619508432]; StrE false 22 [17; 179760011004467468]; StrE false 22 [17; 46130564335626209832]; StrE false 22 [17; 179760011004467468]; StrE false 22 [15; 69396701548619508432]; StrE false 22 [13; 73222113855042069878]; StrE false 22 [11; 38769557831010496972]; StrE false 21 [8; 94747509724365390478]; StrE false 21 [6; 65858611887899825472]; StrE false 21 [4; 69127658375565786128]; StrE false 21 [3; 12751772250377190752]; StrE false 21 [1; 97169595549150837648]; StrE false 21 [1; 17462737773962201152]; StrE false 20 [66072789997853738148]; StrE false 20 [35059031427432595752]; StrE false 20 [17529515713716297876]; IntE 8249183865278257824; IntE 3648677478873075576; IntE 1514545368588823824; IntE 588989865562320376; IntE 214178132931752864; IntE 72667580816130436; IntE 22947657099830664; IntE 6726037425812436; IntE 1824010149372864; IntE 456002537343216; IntE 104656320045984; IntE 21944067106416; IntE 4179822305984; IntE 718406958841; IntE 110524147514; IntE 15071474661; IntE 1799579064; IntE 185250786; IntE 16108764; IntE 1150626; IntE 64824; IntE 2701; IntE 74; IntE 1];
[IntE 1; IntE 75; IntE 2775; IntE 67525; IntE 1215450; IntE 17259390; IntE 201359550; IntE 1984829850; IntE 16871053725; IntE 125595622175; IntE 828931106355; IntE 4898229264825; IntE 26123889412400; IntE 126600387152400; IntE 560658857389200; IntE 2280012686716080; IntE 8550047575185300; IntE 29673694525643100; IntE 95615237915961100; IntE 286845713747883300; IntE 803167998494073240; IntE 2103535234151144200; IntE 5163222847461899400; StrE false 20 [11897861344151333400]; StrE false 20 [25778699578994555700]; StrE false 20 [52588547141148893628]; StrE false 21 [1; 1131821425286333900]; StrE false 21 [1; 83535527771815939300]; StrE false 21 [3; 14632333323113038800]; StrE false 21 [5; 9921367799528028400]; StrE false 21 [7; 81879430625942976880]; StrE false 22 [11; 34986270263465611600]; StrE false 22 [15; 60606121612265215950]; StrE false 22 [20; 33517067555375887450]; StrE false 22 [25; 11991671686052566850]; StrE false 22 [29; 42618815403661578310]; StrE false 22 [32; 69576461559623975900]; StrE false 22 [34; 46310324346630677300]; StrE false 22 [34; 46310324346630677300]; StrE false 22 [32; 69576461559623975900]; StrE false 22 [29; 42618815403661578310]; StrE false 22 [25; 11991671686052566850]; StrE false 22 [20; 33517067555375887450]; StrE false 22 [15; 60606121612265215950]; StrE false 22 [11; 34986270263465611600]; StrE false 21 [7; 81879430625942976880]; StrE false 21 [5; 9921367799528028400]; StrE false 21 [3; 14632333323113038800]; StrE false 21 [1; 83535527771815939300]; StrE false 21 [1; 1131821425286333900]; StrE false 20 [52588547141148893628]; StrE false 20 [25778699578994555700]; StrE false 20 [11897861344151333400]; IntE 5163222847461899400; IntE 2103535234151144200; IntE 803167998494073240; IntE 286845713747883300; IntE 95615237915961100; IntE 29673694525643100; IntE 8550047575185300; IntE 2280012686716080; IntE 560658857389200; IntE 126600387152400; IntE 26123889412400; IntE 4898229264825; IntE 828931106355; IntE 125595622175; IntE 16871053725; IntE 1984829850; IntE 201359550; IntE 17259390; IntE 1215450; IntE 67525; IntE 2775; IntE 75; IntE 1];
[IntE 1; IntE 76; IntE 2850; IntE 70300; IntE 1282975; IntE 18474840; IntE 218618940; IntE 2186189400; IntE 18855883575; IntE 142466675900; IntE 954526728530; IntE 5727160371180; IntE 31022118677225; IntE 152724276564800; IntE 687259244541600; IntE 2840671544105280; IntE 10830060261901380; IntE 38223742100828400; IntE 125288932441604200; IntE 382460951663844400; IntE 1090013712241956540; IntE 2906703232645217440; IntE 7266758081613043600; StrE false 20 [17061084191613232800]; StrE false 20 [37676560923145889100]; StrE false 20 [78367246720143449328]; StrE false 21 [1; 53720368566435227528]; StrE false 21 [2; 84667349197102273200]; StrE false 21 [4; 98167861094928978100]; StrE false 21 [8; 24553701122641067200]; StrE false 22 [12; 91800798425471005280]; StrE false 22 [19; 16865700889408588480]; StrE false 22 [26; 95592391875730827550]; StrE false 22 [35; 94123189167641103400]; StrE false 22 [45; 45508739241428454300]; StrE false 22 [54; 54610487089714145160]; StrE false 22 [62; 12195276963285554210]; StrE false 22 [67; 15886785906254653200]; StrE false 22 [68; 92620648693261354600]; StrE false 22 [67; 15886785906254653200]; StrE false 22 [62; 12195276963285554210]; StrE false 22 [54; 54610487089714145160]; StrE false 22 [45; 45508739241428454300]; StrE false 22 [35; 94123189167641103400]; StrE false 22 [26; 95592391875730827550]; StrE false 22 [19; 16865700889408588480]; StrE false 22 [12; 91800798425471005280]; StrE false 21 [8; 24553701122641067200]; StrE false 21 [4; 98167861094928978100]; StrE false 21 [2; 84667349197102273200]; StrE false 21 [1; 53720368566435227528]; StrE false 20 [78367246720143449328]; StrE false 20 [37676560923145889100]; StrE false 20 [17061084191613232800]; IntE 7266758081613043600; IntE 2906703232645217440; IntE 1090013712241956540; IntE 382460951663844400; IntE 125288932441604200; IntE 38223742100828400; IntE 10830060261901380; IntE 2840671544105280; IntE 687259244541600; IntE 152724276564800; IntE 31022118677225; IntE 5727160371180; IntE 954526728530; IntE 142466675900; IntE 18855883575; IntE 2186189400; IntE 218618940; IntE 18474840; IntE 1282975; IntE 70300; IntE 2850; IntE 76; IntE 1];
[IntE 1; IntE 77; IntE 2926; IntE 73150; IntE 1353275; IntE 19757815; IntE 237093780; IntE 2404808340; IntE 21042072975; IntE 161322559475; IntE 1096993404430; IntE 6681687099710; IntE 36749279048405; IntE 183746395242025; IntE 839983521106400; IntE 3527930788646880; IntE 13670731806006660; IntE 49053802362729780; IntE 163512674542432600; IntE 507749884105448600; IntE 1472474663905800940; IntE 3996716944887173980; StrE false 20 [10173461314258261040]; StrE false 20 [24327842273226276400]; StrE false 20 [54737645114759121900]; StrE false 21 [1; 16043807643289338428]; StrE false 21 [2; 32087615286578676856]; StrE false 21 [4; 38387717763537500728]; StrE false 21 [7; 82835210292031251300]; StrE false 22 [13; 22721562217570045300]; StrE false 22 [21; 16354499548112072480]; StrE false 22 [32; 8666499314879593760]; StrE false 22 [46; 12458092765139416030]; StrE false 22 [62; 89715581043371930950]; StrE false 22 [81; 39631928409069557700]; StrE false 23 [100; 119226331142599460]; StrE false 23 [116; 66805764052999699370]; StrE false 23 [129; 28082062869540207410]; StrE false 23 [136; 8507434599516007800]; StrE false 23 [136; 8507434599516007800]; StrE false 23 [129; 28082062869540207410]; StrE false 23 [116; 66805764052999699370]; StrE false 23 [100; 119226331142599460]; StrE false 22 [81; 39631928409069557700]; StrE false 22 [62; 89715581043371930950]; StrE false 22 [46; 12458092765139416030]; StrE false 22 [32; 8666499314879593760]; StrE false 22 [21; 16354499548112072480]; StrE false 22 [13; 22721562217570045300]; StrE false 21 [7; 82835210292031251300]; StrE false 21 [4; 38387717763537500728]; StrE false 21 [2; 32087615286578676856]; StrE false 21 [1; 16043807643289338428]; StrE false 20 [54737645114759121900]; StrE false 20 [24327842273226276400]; StrE false 20 [10173461314258261040]; IntE 3996716944887173980; IntE 1472474663905800940; IntE 507749884105448600; IntE 163512674542432600; IntE 49053802362729780; IntE 13670731806006660; IntE 3527930788646880; IntE 839983521106400; IntE 183746395242025; IntE 36749279048405; IntE 6681687099710; IntE 1096993404430; IntE 161322559475; IntE 21042072975; IntE 2404808340; IntE 237093780; IntE 19757815; IntE 1353275; IntE 73150; IntE 2926; IntE 77; IntE 1];
[IntE 1; IntE 78; IntE 3003; IntE 76076; IntE 1426425; IntE 21111090; IntE 256851595; IntE 2641902120; IntE 23446881315; IntE 182364632450; IntE 1258315963905; IntE 7778680504140; IntE 43430966148115; IntE 220495674290430; IntE 1023729916348425; IntE 4367914309753280; IntE 17198662594653540; IntE 62724534168736440; IntE 212566476905162380; IntE 671262558647881200; IntE 1980224548011249540; IntE 5469191608792974920; StrE false 20 [14170178259145435020]; StrE false 20 [34501303587484537440]; StrE false 20 [79065487387985398300]; StrE false 21 [1; 70781452758048460328]; StrE false 21 [3; 48131422929868015284]; StrE false 21 [6; 70475333050116177584]; StrE false 22 [12; 21222928055568752028]; StrE false 22 [21; 5556772509601296600]; StrE false 22 [34; 39076061765682117780]; StrE false 22 [53; 25020998862991666240]; StrE false 22 [78; 21124592080019009790]; StrE false 23 [109; 2173673808511346980]; StrE false 23 [144; 29347509452441488650]; StrE false 23 [181; 39751154740212157160]; StrE false 23 [216; 66924990384142298830]; StrE false 23 [245; 94887826922539906780]; StrE false 23 [265; 36589497469056215210]; StrE false 23 [272; 17014869199032015600]; StrE false 23 [265; 36589497469056215210]; StrE false 23 [245; 94887826922539906780]; StrE false 23 [216; 66924990384142298830]; StrE false 23 [181; 39751154740212157160]; StrE false 23 [144; 29347509452441488650]; StrE false 23 [109; 2173673808511346980]; StrE false 22 [78; 21124592080019009790]; StrE false 22 [53; 25020998862991666240]; StrE false 22 [34; 39076061765682117780]; StrE false 22 [21; 5556772509601296600]; StrE false 22 [12; 21222928055568752028]; StrE false 21 [6; 70475333050116177584]; StrE false 21 [3; 48131422929868015284]; StrE false 21 [1; 70781452758048460328]; StrE false 20 [79065487387985398300]; StrE false 20 [34501303587484537440]; StrE false 20 [14170178259145435020]; IntE 5469191608792974920; IntE 1980224548011249540; IntE 671262558647881200; IntE 212566476905162380; IntE 62724534168736440; IntE 17198662594653540; IntE 4367914309753280; IntE 1023729916348425; IntE 220495674290430; IntE 43430966148115; IntE 7778680504140; IntE 1258315963905; IntE 182364632450; IntE 23446881315; IntE 2641902120; IntE 256851595; IntE 21111090; IntE 1426425; IntE 76076; IntE 3003; IntE 78; IntE 1];
[IntE 1; IntE 79; IntE 3081; IntE 79079; IntE 1502501; IntE 22537515; IntE 277962685; IntE 2898753715; IntE 26088783435; IntE 205811513765; IntE 1440680596355; IntE 9036996468045; IntE 51209646652255; IntE 263926640438545; IntE 1244225590638855; IntE 5391644226101705; IntE 21566576904406820; IntE 79923196763389980; IntE 275291011073898820; IntE 883829035553043580; IntE 2651487106659130740; IntE 7449416156804224460; StrE false 20 [19639369867938409940]; StrE false 20 [48671481846629972460]; StrE false 21 [1; 13566790975469935740]; StrE false 21 [2; 49846940146033858628]; StrE false 21 [5; 18912875687916475612]; StrE false 22 [10; 18606755979984192868]; StrE false 22 [18; 91698261105684929612]; StrE false 22 [33; 26779700565170048628]; StrE false 22 [55; 44632834275283414380]; StrE false 22 [87; 64097060628673784020]; StrE false 23 [131; 46145590943010676030]; StrE false 23 [187; 23298265888530356770]; StrE false 23 [253; 31521183260952835630]; StrE false 23 [325; 69098664192653645810]; StrE false 23 [398; 6676145124354455990]; StrE false 23 [462; 61812817306682205610]; StrE false 23 [511; 31477324391596121990]; StrE false 23 [537; 53604366668088230810]; StrE false 23 [537; 53604366668088230810]; StrE false 23 [511; 31477324391596121990]; StrE false 23 [462; 61812817306682205610]; StrE false 23 [398; 6676145124354455990]; StrE false 23 [325; 69098664192653645810]; StrE false 23 [253; 31521183260952835630]; StrE false 23 [187; 23298265888530356770]; StrE false 23 [131; 46145590943010676030]; StrE false 22 [87; 64097060628673784020]; StrE false 22 [55; 44632834275283414380]; StrE false 22 [33; 26779700565170048628]; StrE false 22 [18; 91698261105684929612]; StrE false 22 [10; 18606755979984192868]; StrE false 21 [5; 18912875687916475612]; StrE false 21 [2; 49846940146033858628]; StrE false 21 [1; 13566790975469935740]; StrE false 20 [48671481846629972460]; StrE false 20 [19639369867938409940]; IntE 7449416156804224460; IntE 2651487106659130740; IntE 883829035553043580; IntE 275291011073898820; IntE 79923196763389980; IntE 21566576904406820; IntE 5391644226101705; IntE 1244225590638855; IntE 263926640438545; IntE 51209646652255; IntE 9036996468045; IntE 1440680596355; IntE 205811513765; IntE 26088783435; IntE 2898753715; IntE 277962685; IntE 22537515; IntE 1502501; IntE 79079; IntE 3081; IntE 79; IntE 1];
[IntE 1; IntE 80; IntE 3160; IntE 82160; IntE 1581580; IntE 24040016; IntE 300500200; IntE 3176716400; IntE 28987537150; IntE 231900297200; IntE 1646492110120; IntE 10477677064400; IntE 60246643120300; IntE 315136287090800; IntE 1508152231077400; IntE 6635869816740560; IntE 26958221130508525; IntE 101489773667796800; IntE 355214207837288800; IntE 1159120046626942400; IntE 3535316142212174320; StrE false 20 [10100903263463355200]; StrE false 20 [27088786024742634400]; StrE false 20 [68310851714568382400]; StrE false 21 [1; 62238272822099908200]; StrE false 21 [3; 63413731121503794368]; StrE false 21 [7; 68759815833950334240]; StrE false 22 [15; 37519631667900668480]; StrE false 22 [29; 10305017085669122480]; StrE false 22 [52; 18477961670854978240]; StrE false 22 [88; 71412534840453463008]; StrE false 23 [143; 8729894903957198400]; StrE false 23 [219; 10242651571684460050]; StrE false 23 [318; 69443856831541032800]; StrE false 23 [440; 54819449149483192400]; StrE false 23 [579; 619847453606481440]; StrE false 23 [723; 75774809317008101800]; StrE false 23 [860; 68488962431036661600]; StrE false 23 [973; 93290141698278327600]; StrE false 24 [1048; 85081691059684352800]; StrE false 24 [1075; 7208733336176461620]; StrE false 24 [1048; 85081691059684352800]; StrE false 23 [973; 93290141698278327600]; StrE false 23 [860; 68488962431036661600]; StrE false 23 [723; 75774809317008101800]; StrE false 23 [579; 619847453606481440]; StrE false 23 [440; 54819449149483192400]; StrE false 23 [318; 69443856831541032800]; StrE false 23 [219; 10242651571684460050]; StrE false 23 [143; 8729894903957198400]; StrE false 22 [88; 71412534840453463008]; StrE false 22 [52; 18477961670854978240]; StrE false 22 [29; 10305017085669122480]; StrE false 22 [15; 37519631667900668480]; StrE false 21 [7; 68759815833950334240]; StrE false 21 [3; 63413731121503794368]; StrE false 21 [1; 62238272822099908200]; StrE false 20 [68310851714568382400]; StrE false 20 [27088786024742634400]; StrE false 20 [10100903263463355200]; IntE 3535316142212174320; IntE 1159120046626942400; IntE 355214207837288800; IntE 101489773667796800; IntE 26958221130508525; IntE 6635869816740560; IntE 1508152231077400; IntE 315136287090800; IntE 60246643120300; IntE 10477677064400; IntE 1646492110120; IntE 231900297200; IntE 28987537150; IntE 3176716400; IntE 300500200; IntE 24040016; IntE 1581580; IntE 82160; IntE 3160; IntE 80; IntE 1];
[IntE 1; IntE 81; IntE 3240; IntE 85320; IntE 1663740; IntE 25621596; IntE 324540216; IntE 3477216600; IntE 32164253550; IntE 260887834350; IntE 1878392407320; IntE 12124169174520; IntE 70724320184700; IntE 375382930211100; IntE 1823288518168200; IntE 8144022047817960; IntE 33594090947249085; IntE 128447994798305325; IntE 456703981505085600; IntE 1514334254464231200; IntE 4694436188839116720; StrE false 20 [13636219405675529520]; StrE false 20 [37189689288205989600]; StrE false 20 [95399637739311016800]; StrE false 21 [2; 30549124536668290600]; StrE false 21 [5; 25652003943603702568]; StrE false 22 [11; 32173546955454128608]; StrE false 22 [23; 6279447501851002720]; StrE false 22 [44; 47824648753569790960]; StrE false 22 [81; 28782978756524100720]; StrE false 23 [140; 89890496511308441248]; StrE false 23 [231; 80142429744410661408]; StrE false 23 [362; 18972546475641658450]; StrE false 23 [537; 79686508403225492850]; StrE false 23 [759; 24263305981024225200]; StrE false 24 [1019; 55439296603089673840]; StrE false 24 [1302; 76394656770614583240]; StrE false 24 [1584; 44263771748044763400]; StrE false 24 [1834; 61779104129314989200]; StrE false 24 [2022; 78371832757962680400]; StrE false 24 [2123; 92290424395860814420]; StrE false 24 [2123; 92290424395860814420]; StrE false 24 [2022; 78371832757962680400]; StrE false 24 [1834; 61779104129314989200]; StrE false 24 [1584; 44263771748044763400]; StrE false 24 [1302; 76394656770614583240]; StrE false 24 [1019; 55439296603089673840]; StrE false 23 [759; 24263305981024225200]; StrE false 23 [537; 79686508403225492850]; StrE false 23 [362; 18972546475641658450]; StrE false 23 [231; 80142429744410661408]; StrE false 23 [140; 89890496511308441248]; StrE false 22 [81; 28782978756524100720]; StrE false 22 [44; 47824648753569790960]; StrE false 22 [23; 6279447501851002720]; StrE false 22 [11; 32173546955454128608]; StrE false 21 [5; 25652003943603702568]; StrE false 21 [2; 30549124536668290600]; StrE false 20 [95399637739311016800]; StrE false 20 [37189689288205989600]; StrE false 20 [13636219405675529520]; IntE 4694436188839116720; IntE 1514334254464231200; IntE 456703981505085600; IntE 128447994798305325; IntE 33594090947249085; IntE 8144022047817960; IntE 1823288518168200; IntE 375382930211100; IntE 70724320184700; IntE 12124169174520; IntE 1878392407320; IntE 260887834350; IntE 32164253550; IntE 3477216600; IntE 324540216; IntE 25621596; IntE 1663740; IntE 85320; IntE 3240; IntE 81; IntE 1];
[IntE 1; IntE 82; IntE 3321; IntE 88560; IntE 1749060; IntE 27285336; IntE 350161812; IntE 3801756816; IntE 35641470150; IntE 293052087900; IntE 2139280241670; IntE 14002561581840; IntE 82848489359220; IntE 446107250395800; IntE 2198671448379300; IntE 9967310565986160; IntE 41738112995067045; IntE 162042085745554410; IntE 585151976303390925; IntE 1971038235969316800; IntE 6208770443303347920; StrE false 20 [18330655594514646240]; StrE false 20 [50825908693881519120]; StrE false 21 [1; 32589327027517006400]; StrE false 21 [3; 25948762275979307400]; StrE false 21 [7; 56201128480271993168]; StrE false 22 [16; 57825550899057831176]; StrE false 22 [34; 38452994457305131328]; StrE false 22 [67; 54104096255420793680]; StrE false 23 [125; 76607627510093891680]; StrE false 23 [222; 18673475267832541968]; StrE false 23 [372; 70032926255719102656]; StrE false 23 [593; 99114976220052319858]; StrE false 23 [899; 98659054878867151300]; StrE false 24 [1297; 3949814384249718050]; StrE false 24 [1778; 79702602584113899040]; StrE false 24 [2322; 31833953373704257080]; StrE false 24 [2887; 20658428518659346640]; StrE false 24 [3419; 6042875877359752600]; StrE false 24 [3857; 40150936887277669600]; StrE false 24 [4146; 70662257153823494820]; StrE false 24 [4247; 84580848791721628840]; StrE false 24 [4146; 70662257153823494820]; StrE false 24 [3857; 40150936887277669600]; StrE false 24 [3419; 6042875877359752600]; StrE false 24 [2887; 20658428518659346640]; StrE false 24 [2322; 31833953373704257080]; StrE false 24 [1778; 79702602584113899040]; StrE false 24 [1297; 3949814384249718050]; StrE false 23 [899; 98659054878867151300]; StrE false 23 [593; 99114976220052319858]; StrE false 23 [372; 70032926255719102656]; StrE false 23 [222; 18673475267832541968]; StrE false 23 [125; 76607627510093891680]; StrE false 22 [67; 54104096255420793680]; StrE false 22 [34; 38452994457305131328]; StrE false 22 [16; 57825550899057831176]; StrE false 21 [7; 56201128480271993168]; StrE false 21 [3; 25948762275979307400]; StrE false 21 [1; 32589327027517006400]; StrE false 20 [50825908693881519120]; StrE false 20 [18330655594514646240]; IntE 6208770443303347920; IntE 1971038235969316800; IntE 585151976303390925; IntE 162042085745554410; IntE 41738112995067045; IntE 9967310565986160; IntE 2198671448379300; IntE 446107250395800; IntE 82848489359220; IntE 14002561581840; IntE 2139280241670; IntE 293052087900; IntE 35641470150; IntE 3801756816; IntE 350161812; IntE 27285336; IntE 1749060; IntE 88560; IntE 3321; IntE 82; IntE 1];
[IntE 1; IntE 83; IntE 3403; IntE 91881; IntE 1837620; IntE 29034396; IntE 377447148; IntE 4151918628; IntE 39443226966; IntE 328693558050; IntE 2432332329570; IntE 16141841823510; IntE 96851050941060; IntE 528955739755020; IntE 2644778698775100; IntE 12165982014365460; IntE 51705423561053205; IntE 203780198740621455; IntE 747194062048945335; IntE 2556190212272707725; IntE 8179808679272664720; StrE false 20 [24539426037817994160]; StrE false 20 [69156564288396165360]; StrE false 21 [1; 83415235721398525520]; StrE false 21 [4; 58538089303496313800]; StrE false 22 [10; 82149890756251300568]; StrE false 22 [24; 14026679379329824344]; StrE false 22 [50; 96278545356362962504]; StrE false 23 [101; 92557090712725925008]; StrE false 23 [193; 30711723765514685360]; StrE false 23 [347; 95281102777926433648]; StrE false 23 [594; 88706401523551644624]; StrE false 23 [966; 69147902475771422514]; StrE false 24 [1493; 97774031098919471158]; StrE false 24 [2197; 2608869263116869350]; StrE false 24 [3075; 83652416968363617090]; StrE false 24 [4101; 11536555957818156120]; StrE false 24 [5209; 52492381892363603720]; StrE false 24 [6306; 26701304396019099240]; StrE false 24 [7276; 46193812764637422200]; StrE false 24 [8004; 10813194041101164420]; StrE false 24 [8394; 55243105945545123660]; StrE false 24 [8394; 55243105945545123660]; StrE false 24 [8004; 10813194041101164420]; StrE false 24 [7276; 46193812764637422200]; StrE false 24 [6306; 26701304396019099240]; StrE false 24 [5209; 52492381892363603720]; StrE false 24 [4101; 11536555957818156120]; StrE false 24 [3075; 83652416968363617090]; StrE false 24 [2197; 2608869263116869350]; StrE false 24 [1493; 97774031098919471158]; StrE false 23 [966; 69147902475771422514]; StrE false 23 [594; 88706401523551644624]; StrE false 23 [347; 95281102777926433648]; StrE false 23 [193; 30711723765514685360]; StrE false 23 [101; 92557090712725925008]; StrE false 22 [50; 96278545356362962504]; StrE false 22 [24; 14026679379329824344]; StrE false 22 [10; 82149890756251300568]; StrE false 21 [4; 58538089303496313800]; StrE false 21 [1; 83415235721398525520]; StrE false 20 [69156564288396165360]; StrE false 20 [24539426037817994160]; IntE 8179808679272664720; IntE 2556190212272707725; IntE 747194062048945335; IntE 203780198740621455; IntE 51705423561053205; IntE 12165982014365460; IntE 2644778698775100; IntE 528955739755020; IntE 96851050941060; IntE 16141841823510; IntE 2432332329570; IntE 328693558050; IntE 39443226966; IntE 4151918628; IntE 377447148; IntE 29034396; IntE 1837620; IntE 91881; IntE 3403; IntE 83; IntE 1];
[IntE 1; IntE 84; IntE 3486; IntE 95284; IntE 1929501; IntE 30872016; IntE 406481544; IntE 4529365776; IntE 43595145594; IntE 368136785016; IntE 2761025887620; IntE 18574174153080; IntE 112992892764570; IntE 625806790696080; IntE 3173734438530120; IntE 14810760713140560; IntE 63871405575418665; IntE 255485622301674660; IntE 950974260789566790; IntE 3303384274321653060; StrE false 20 [10735998891545372445]; StrE false 20 [32719234717090658880]; StrE false 20 [93695990326214159520]; StrE false 21 [2; 52571800009794690880]; StrE false 21 [6; 41953325024894839320]; StrE false 22 [15; 40687980059747614368]; StrE false 22 [34; 96176570135581124912]; StrE false 22 [75; 10305224735692786848]; StrE false 23 [152; 88835636069088887512]; StrE false 23 [295; 23268814478240610368]; StrE false 23 [541; 25992826543441119008]; StrE false 23 [942; 83987504301478078272]; StrE false 24 [1561; 57854303999323067138]; StrE false 24 [2460; 66921933574690893672]; StrE false 24 [3691; 382900362036340508]; StrE false 24 [5272; 86261286231480486440]; StrE false 24 [7176; 95188972926181773210]; StrE false 24 [9310; 64028937850181759840]; StrE false 25 [11515; 79193686288382702960]; StrE false 25 [13582; 72895117160656521440]; StrE false 25 [15280; 57007006805738586620]; StrE false 25 [16398; 66056299986646288080]; StrE false 25 [16789; 10486211891090247320]; StrE false 25 [16398; 66056299986646288080]; StrE false 25 [15280; 57007006805738586620]; StrE false 25 [13582; 72895117160656521440]; StrE false 25 [11515; 79193686288382702960]; StrE false 24 [9310; 64028937850181759840]; StrE false 24 [7176; 95188972926181773210]; StrE false 24 [5272; 86261286231480486440]; StrE false 24 [3691; 382900362036340508]; StrE false 24 [2460; 66921933574690893672]; StrE false 24 [1561; 57854303999323067138]; StrE false 23 [942; 83987504301478078272]; StrE false 23 [541; 25992826543441119008]; StrE false 23 [295; 23268814478240610368]; StrE false 23 [152; 88835636069088887512]; StrE false 22 [75; 10305224735692786848]; StrE false 22 [34; 96176570135581124912]; StrE false 22 [15; 40687980059747614368]; StrE false 21 [6; 41953325024894839320]; StrE false 21 [2; 52571800009794690880]; StrE false 20 [93695990326214159520]; StrE false 20 [32719234717090658880]; StrE false 20 [10735998891545372445]; IntE 3303384274321653060; IntE 950974260789566790; IntE 255485622301674660; IntE 63871405575418665; IntE 14810760713140560; IntE 3173734438530120; IntE 625806790696080; IntE 112992892764570; IntE 18574174153080; IntE 2761025887620; IntE 368136785016; IntE 43595145594; IntE 4529365776; IntE 406481544; IntE 30872016; IntE 1929501; IntE 95284; IntE 3486; IntE 84; IntE 1];
[IntE 1; IntE 85; IntE 3570; IntE 98770; IntE 2024785; IntE 32801517; IntE 437353560; IntE 4935847320; IntE 48124511370; IntE 411731930610; IntE 3129162672636; IntE 21335200040700; IntE 131567066917650; IntE 738799683460650; IntE 3799541229226200; IntE 17984495151670680; IntE 78682166288559225; IntE 319357027877093325; IntE 1206459883091241450; IntE 4254358535111219850; StrE false 20 [14039383165867025505]; StrE false 20 [43455233608636031325]; StrE false 21 [1; 26415225043304818400]; StrE false 21 [3; 46267790336008850400]; StrE false 21 [8; 94525125034689530200]; StrE false 22 [21; 82641305084642453688]; StrE false 22 [50; 36864550195328739280]; StrE false 23 [110; 6481794871273911760]; StrE false 23 [227; 99140860804781674360]; StrE false 23 [448; 12104450547329497880]; StrE false 23 [836; 49261641021681729376]; StrE false 24 [1484; 9980330844919197280]; StrE false 24 [2504; 41841808300801145410]; StrE false 24 [4022; 24776237574013960810]; StrE false 24 [6151; 67304833936727234180]; StrE false 24 [8963; 86644186593516826948]; StrE false 25 [12449; 81450259157662259650]; StrE false 25 [16487; 59217910776363533050]; StrE false 25 [20826; 43222624138564462800]; StrE false 25 [25098; 52088803449039224400]; StrE false 25 [28863; 29902123966395108060]; StrE false 25 [31679; 23063306792384874700]; StrE false 25 [33187; 76542511877736535400]; StrE false 25 [33187; 76542511877736535400]; StrE false 25 [31679; 23063306792384874700]; StrE false 25 [28863; 29902123966395108060]; StrE false 25 [25098; 52088803449039224400]; StrE false 25 [20826; 43222624138564462800]; StrE false 25 [16487; 59217910776363533050]; StrE false 25 [12449; 81450259157662259650]; StrE false 24 [8963; 86644186593516826948]; StrE false 24 [6151; 67304833936727234180]; StrE false 24 [4022; 24776237574013960810]; StrE false 24 [2504; 41841808300801145410]; StrE false 24 [1484; 9980330844919197280]; StrE false 23 [836; 49261641021681729376]; StrE false 23 [448; 12104450547329497880]; StrE false 23 [227; 99140860804781674360]; StrE false 23 [110; 6481794871273911760]; StrE false 22 [50; 36864550195328739280]; StrE false 22 [21; 82641305084642453688]; StrE false 21 [8; 94525125034689530200]; StrE false 21 [3; 46267790336008850400]; StrE false 21 [1; 26415225043304818400]; StrE false 20 [43455233608636031325]; StrE false 20 [14039383165867025505]; IntE 4254358535111219850; IntE 1206459883091241450; IntE 319357027877093325; IntE 78682166288559225; IntE 17984495151670680; IntE 3799541229226200; IntE 738799683460650; IntE 131567066917650; IntE 21335200040700; IntE 3129162672636; IntE 411731930610; IntE 48124511370; IntE 4935847320; IntE 437353560; IntE 32801517; IntE 2024785; IntE 98770; IntE 3570; IntE 85; IntE 1];
[IntE 1; IntE 86; IntE 3655; IntE 102340; IntE 2123555; IntE 34826302; IntE 470155077; IntE 5373200880; IntE 53060358690; IntE 459856441980; IntE 3540894603246; IntE 24464362713336; IntE 152902266958350; IntE 870366750378300; IntE 4538340912686850; IntE 21784036380896880; IntE 96666661440229905; IntE 398039194165652550; IntE 1525816910968334775; IntE 5460818418202461300; StrE false 20 [18293741700978245355]; StrE false 20 [57494616774503056830]; StrE false 21 [1; 69870458651940849725]; StrE false 21 [4; 72683015379313668800]; StrE false 22 [12; 40792915370698380600]; StrE false 22 [30; 77166430119331983888]; StrE false 22 [72; 19505855279971192968]; StrE false 23 [160; 43346345066602651040]; StrE false 23 [338; 5622655676055586120]; StrE false 23 [676; 11245311352111172240]; StrE false 24 [1284; 61366091569011227256]; StrE false 24 [2320; 59241971866600926656]; StrE false 24 [3988; 51822139145720342690]; StrE false 24 [6526; 66618045874815106220]; StrE false 25 [10173; 92081071510741194990]; StrE false 25 [15115; 53949020530244061128]; StrE false 25 [21413; 68094445751179086598]; StrE false 25 [28937; 40668169934025792700]; StrE false 25 [37314; 2440534914927995850]; StrE false 25 [45924; 95311427587603687200]; StrE false 25 [53961; 81990927415434332460]; StrE false 25 [60542; 52965430758779982760]; StrE false 25 [64866; 99605818670121410100]; StrE false 25 [66375; 53085023755473070800]; StrE false 25 [64866; 99605818670121410100]; StrE false 25 [60542; 52965430758779982760]; StrE false 25 [53961; 81990927415434332460]; StrE false 25 [45924; 95311427587603687200]; StrE false 25 [37314; 2440534914927995850]; StrE false 25 [28937; 40668169934025792700]; StrE false 25 [21413; 68094445751179086598]; StrE false 25 [15115; 53949020530244061128]; StrE false 25 [10173; 92081071510741194990]; StrE false 24 [6526; 66618045874815106220]; StrE false 24 [3988; 51822139145720342690]; StrE false 24 [2320; 59241971866600926656]; StrE false 24 [1284; 61366091569011227256]; StrE false 23 [676; 11245311352111172240]; StrE false 23 [338; 5622655676055586120]; StrE false 23 [160; 43346345066602651040]; StrE false 22 [72; 19505855279971192968]; StrE false 22 [30; 77166430119331983888]; StrE false 22 [12; 40792915370698380600]; StrE false 21 [4; 72683015379313668800]; StrE false 21 [1; 69870458651940849725]; StrE false 20 [57494616774503056830]; StrE false 20 [18293741700978245355]; IntE 5460818418202461300; IntE 1525816910968334775; IntE 398039194165652550; IntE 96666661440229905; IntE 21784036380896880; IntE 4538340912686850; IntE 870366750378300; IntE 152902266958350; IntE 24464362713336; IntE 3540894603246; IntE 459856441980; IntE 53060358690; IntE 5373200880; IntE 470155077; IntE 34826302; IntE 2123555; IntE 102340; IntE 3655; IntE 86; IntE 1];
[IntE 1; IntE 87; IntE 3741; IntE 105995; IntE 2225895; IntE 36949857; IntE 504981379; IntE 5843355957; IntE 58433559570; IntE 512916800670; IntE 4000751045226; IntE 28005257316582; IntE 177366629671686; IntE 1023269017336650; IntE 5408707663065150; IntE 26322377293583730; IntE 118450697821126785; IntE 494705855605882455; IntE 1923856105133987325; IntE 6986635329170796075; StrE false 20 [23754560119180706655]; StrE false 20 [75788358475481302185]; StrE false 21 [2; 27365075426443906555]; StrE false 21 [6; 42553474031254518525]; StrE false 22 [17; 13475930750012049400]; StrE false 22 [43; 17959345490030364488]; StrE false 23 [102; 96672285399303176856]; StrE false 23 [232; 62852200346573844008]; StrE false 23 [498; 48969000742658237160]; StrE false 24 [1014; 16867967028166758360]; StrE false 24 [1960; 72611402921122399496]; StrE false 24 [3605; 20608063435612153912]; StrE false 24 [6309; 11064111012321269346]; StrE false 25 [10515; 18440185020535448910]; StrE false 25 [16700; 58699117385556301210]; StrE false 25 [25289; 46030092040985256118]; StrE false 25 [36529; 22043466281423147726]; StrE false 25 [50351; 8762615685204879298]; StrE false 25 [66251; 43108704848953788550]; StrE false 25 [83238; 97751962502531683050]; StrE false 25 [99886; 77302355003038019660]; StrE false 26 [114504; 34956358174214315220]; StrE false 26 [125409; 52571249428901392860]; StrE false 26 [131242; 52690842425594480900]; StrE false 26 [131242; 52690842425594480900]; StrE false 26 [125409; 52571249428901392860]; StrE false 26 [114504; 34956358174214315220]; StrE false 25 [99886; 77302355003038019660]; StrE false 25 [83238; 97751962502531683050]; StrE false 25 [66251; 43108704848953788550]; StrE false 25 [50351; 8762615685204879298]; StrE false 25 [36529; 22043466281423147726]; StrE false 25 [25289; 46030092040985256118]; StrE false 25 [16700; 58699117385556301210]; StrE false 25 [10515; 18440185020535448910]; StrE false 24 [6309; 11064111012321269346]; StrE false 24 [3605; 20608063435612153912]; StrE false 24 [1960; 72611402921122399496]; StrE false 24 [1014; 16867967028166758360]; StrE false 23 [498; 48969000742658237160]; StrE false 23 [232; 62852200346573844008]; StrE false 23 [102; 96672285399303176856]; StrE false 22 [43; 17959345490030364488]; StrE false 22 [17; 13475930750012049400]; StrE false 21 [6; 42553474031254518525]; StrE false 21 [2; 27365075426443906555]; StrE false 20 [75788358475481302185]; StrE false 20 [23754560119180706655]; IntE 6986635329170796075; IntE 1923856105133987325; IntE 494705855605882455; IntE 118450697821126785; IntE 26322377293583730; IntE 5408707663065150; IntE 1023269017336650; IntE 177366629671686; IntE 28005257316582; IntE 4000751045226; IntE 512916800670; IntE 58433559570; IntE 5843355957; IntE 504981379; IntE 36949857; IntE 2225895; IntE 105995; IntE 3741; IntE 87; IntE 1];
[IntE 1; IntE 88; IntE 3828; IntE 109736; IntE 2331890; IntE 39175752; IntE 541931236; IntE 6348337336; IntE 64276915527; IntE 571350360240; IntE 4513667845896; IntE 32006008361808; IntE 205371886988268; IntE 1200635647008336; IntE 6431976680401800; IntE 31731084956648880; IntE 144773075114710515; IntE 613156553427009240; IntE 2418561960739869780; IntE 8910491434304783400; StrE false 20 [30741195448351502730]; StrE false 20 [99542918594662008840]; StrE false 21 [3; 3153433901925208740]; StrE false 21 [8; 69918549457698425080]; StrE false 22 [23; 56029404781266567925]; StrE false 22 [60; 31435276240042413888]; StrE false 23 [146; 14631630889333541344]; StrE false 23 [335; 59524485745877020864]; StrE false 23 [731; 11821201089232081168]; StrE false 24 [1512; 65836967770824995520]; StrE false 24 [2974; 89479369949289157856]; StrE false 24 [5565; 93219466356734553408]; StrE false 24 [9914; 31672174447933423258]; StrE false 25 [16824; 29504296032856718256]; StrE false 25 [27215; 77139302406091750120]; StrE false 25 [41990; 4729209426541557328]; StrE false 25 [61818; 68073558322408403844]; StrE false 25 [86880; 30806081966628027024]; StrE false 26 [116602; 51871320534158667848]; StrE false 26 [149490; 40860667351485471600]; StrE false 26 [183125; 75054317505569702710]; StrE false 26 [214391; 12258713177252334880]; StrE false 26 [239913; 87527607603115708080]; StrE false 26 [256652; 5262091854495873760]; StrE false 26 [262485; 5381684851188961800]; StrE false 26 [256652; 5262091854495873760]; StrE false 26 [239913; 87527607603115708080]; StrE false 26 [214391; 12258713177252334880]; StrE false 26 [183125; 75054317505569702710]; StrE false 26 [149490; 40860667351485471600]; StrE false 26 [116602; 51871320534158667848]; StrE false 25 [86880; 30806081966628027024]; StrE false 25 [61818; 68073558322408403844]; StrE false 25 [41990; 4729209426541557328]; StrE false 25 [27215; 77139302406091750120]; StrE false 25 [16824; 29504296032856718256]; StrE false 24 [9914; 31672174447933423258]; StrE false 24 [5565; 93219466356734553408]; StrE false 24 [2974; 89479369949289157856]; StrE false 24 [1512; 65836967770824995520]; StrE false 23 [731; 11821201089232081168]; StrE false 23 [335; 59524485745877020864]; StrE false 23 [146; 14631630889333541344]; StrE false 22 [60; 31435276240042413888]; StrE false 22 [23; 56029404781266567925]; StrE false 21 [8; 69918549457698425080]; StrE false 21 [3; 3153433901925208740]; StrE false 20 [99542918594662008840]; StrE false 20 [30741195448351502730]; IntE 8910491434304783400; IntE 2418561960739869780; IntE 613156553427009240; IntE 144773075114710515; IntE 31731084956648880; IntE 6431976680401800; IntE 1200635647008336; IntE 205371886988268; IntE 32006008361808; IntE 4513667845896; IntE 571350360240; IntE 64276915527; IntE 6348337336; IntE 541931236; IntE 39175752; IntE 2331890; IntE 109736; IntE 3828; IntE 88; IntE 1];
[IntE 1; IntE 89; IntE 3916; IntE 113564; IntE 2441626; IntE 41507642; IntE 581106988; IntE 6890268572; IntE 70625252863; IntE 635627275767; IntE 5085018206136; IntE 36519676207704; IntE 237377895350076; IntE 1406007533996604; IntE 7632612327410136; IntE 38163061637050680; IntE 176504160071359395; IntE 757929628541719755; IntE 3031718514166879020; StrE false 20 [11329053395044653180]; StrE false 20 [39651686882656286130]; StrE false 21 [1; 30284114043013511570]; StrE false 21 [4; 2696352496587217580]; StrE false 22 [11; 73071983359623633820]; StrE false 22 [32; 25947954238964993005]; StrE false 22 [83; 87464681021308981813]; StrE false 23 [206; 46066907129375955232]; StrE false 23 [481; 74156116635210562208]; StrE false 24 [1066; 71345686835109102032]; StrE false 24 [2243; 77658168860057076688]; StrE false 24 [4487; 55316337720114153376]; StrE false 24 [8540; 82698836306023711264]; StrE false 25 [15480; 24891640804667976666]; StrE false 25 [26738; 61176470480790141514]; StrE false 25 [44040; 6643598438948468376]; StrE false 25 [69205; 81868511832633307448]; StrE false 26 [103808; 72802767748949961172]; StrE false 26 [148698; 98879640289036430868]; StrE false 26 [203482; 82677402500786694872]; StrE false 26 [266092; 92731987885644139448]; StrE false 26 [332616; 15914984857055174310]; StrE false 26 [397516; 87313030682822037590]; StrE false 26 [454304; 99786320780368042960]; StrE false 26 [496565; 92789699457611581840]; StrE false 26 [519137; 10643776705684835560]; StrE false 26 [519137; 10643776705684835560]; StrE false 26 [496565; 92789699457611581840]; StrE false 26 [454304; 99786320780368042960]; StrE false 26 [397516; 87313030682822037590]; StrE false 26 [332616; 15914984857055174310]; StrE false 26 [266092; 92731987885644139448]; StrE false 26 [203482; 82677402500786694872]; StrE false 26 [148698; 98879640289036430868]; StrE false 26 [103808; 72802767748949961172]; StrE false 25 [69205; 81868511832633307448]; StrE false 25 [44040; 6643598438948468376]; StrE false 25 [26738; 61176470480790141514]; StrE false 25 [15480; 24891640804667976666]; StrE false 24 [8540; 82698836306023711264]; StrE false 24 [4487; 55316337720114153376]; StrE false 24 [2243; 77658168860057076688]; StrE false 24 [1066; 71345686835109102032]; StrE false 23 [481; 74156116635210562208]; StrE false 23 [206; 46066907129375955232]; StrE false 22 [83; 87464681021308981813]; StrE false 22 [32; 25947954238964993005]; StrE false 22 [11; 73071983359623633820]; StrE false 21 [4; 2696352496587217580]; StrE false 21 [1; 30284114043013511570]; StrE false 20 [39651686882656286130]; StrE false 20 [11329053395044653180]; IntE 3031718514166879020; IntE 757929628541719755; IntE 176504160071359395; IntE 38163061637050680; IntE 7632612327410136; IntE 1406007533996604; IntE 237377895350076; IntE 36519676207704; IntE 5085018206136; IntE 635627275767; IntE 70625252863; IntE 6890268572; IntE 581106988; IntE 41507642; IntE 2441626; IntE 113564; IntE 3916; IntE 89; IntE 1];
[IntE 1; IntE 90; IntE 4005; IntE 117480; IntE 2555190; IntE 43949268; IntE 622614630; IntE 7471375560; IntE 77515521435; IntE 706252528630; IntE 5720645481903; IntE 41604694413840; IntE 273897571557780; IntE 1643385429346680; IntE 9038619861406740; IntE 45795673964460816; IntE 214667221708410075; IntE 934433788613079150; IntE 3789648142708598775; StrE false 20 [14360771909211532200]; StrE false 20 [50980740277700939310]; StrE false 21 [1; 69935800925669797700]; StrE false 21 [5; 32980466539600729150]; StrE false 22 [15; 75768335856210851400]; StrE false 22 [43; 99019937598588626825]; StrE false 23 [116; 13412635260273974818]; StrE false 23 [290; 33531588150684937045]; StrE false 23 [688; 20223023764586517440]; StrE false 24 [1548; 45501803470319664240]; StrE false 24 [3310; 49003855695166178720]; StrE false 24 [6731; 32974506580171230064]; StrE false 25 [13028; 38015174026137864640]; StrE false 25 [24021; 7590477110691687930]; StrE false 25 [42218; 86068111285458118180]; StrE false 25 [70778; 67820068919738609890]; StrE false 26 [113245; 88512110271581775824]; StrE false 26 [173014; 54671279581583268620]; StrE false 26 [252507; 71682408037986392040]; StrE false 26 [352181; 81557042789823125740]; StrE false 26 [469575; 75409390386430834320]; StrE false 26 [598709; 8646972742699313758]; StrE false 26 [730133; 3228015539877211900]; StrE false 26 [851821; 87099351463190080550]; StrE false 26 [950870; 92576020237979624800]; StrE false 27 [1015703; 3433476163296417400]; StrE false 27 [1038274; 21287553411369671120]; StrE false 27 [1015703; 3433476163296417400]; StrE false 26 [950870; 92576020237979624800]; StrE false 26 [851821; 87099351463190080550]; StrE false 26 [730133; 3228015539877211900]; StrE false 26 [598709; 8646972742699313758]; StrE false 26 [469575; 75409390386430834320]; StrE false 26 [352181; 81557042789823125740]; StrE false 26 [252507; 71682408037986392040]; StrE false 26 [173014; 54671279581583268620]; StrE false 26 [113245; 88512110271581775824]; StrE false 25 [70778; 67820068919738609890]; StrE false 25 [42218; 86068111285458118180]; StrE false 25 [24021; 7590477110691687930]; StrE false 25 [13028; 38015174026137864640]; StrE false 24 [6731; 32974506580171230064]; StrE false 24 [3310; 49003855695166178720]; StrE false 24 [1548; 45501803470319664240]; StrE false 23 [688; 20223023764586517440]; StrE false 23 [290; 33531588150684937045]; StrE false 23 [116; 13412635260273974818]; StrE false 22 [43; 99019937598588626825]; StrE false 22 [15; 75768335856210851400]; StrE false 21 [5; 32980466539600729150]; StrE false 21 [1; 69935800925669797700]; StrE false 20 [50980740277700939310]; StrE false 20 [14360771909211532200]; IntE 3789648142708598775; IntE 934433788613079150; IntE 214667221708410075; IntE 45795673964460816; IntE 9038619861406740; IntE 1643385429346680; IntE 273897571557780; IntE 41604694413840; IntE 5720645481903; IntE 706252528630; IntE 77515521435; IntE 7471375560; IntE 622614630; IntE 43949268; IntE 2555190; IntE 117480; IntE 4005; IntE 90; IntE 1];
[IntE 1; IntE 91; IntE 4095; IntE 121485; IntE 2672670; IntE 46504458; IntE 666563898; IntE 8093990190; IntE 84986896995; IntE 783768050065; IntE 6426898010533; IntE 47325339895743; IntE 315502265971620; IntE 1917283000904460; IntE 10682005290753420; IntE 54834293825867556; IntE 260462895672870891; IntE 1149101010321489225; IntE 4724081931321677925; StrE false 20 [18150420051920130975]; StrE false 20 [65341512186912471510]; StrE false 21 [2; 20916541203370737010]; StrE false 21 [7; 2916267465270526850]; StrE false 22 [21; 8748802395811580550]; StrE false 22 [59; 74788273454799478225]; StrE false 23 [160; 12432572858862601643]; StrE false 23 [406; 46944223410958911863]; StrE false 23 [978; 53754611915271454485]; StrE false 24 [2236; 65724827234906181680]; StrE false 24 [4858; 94505659165485842960]; StrE false 25 [10041; 81978362275337408784]; StrE false 25 [19759; 70989680606309094704]; StrE false 25 [37049; 45605651136829552570]; StrE false 25 [66239; 93658588396149806110]; StrE false 26 [112997; 53888180205196728070]; StrE false 26 [184024; 56332179191320385714]; StrE false 26 [286260; 43183389853165044444]; StrE false 26 [425522; 26353687619569660660]; StrE false 26 [604689; 53239450827809517780]; StrE false 26 [821757; 56966433176253960060]; StrE false 27 [1068284; 84056363129130148078]; StrE false 27 [1328842; 11874988282576525658]; StrE false 27 [1581954; 90327367003067292450]; StrE false 27 [1802692; 79675371701169705350]; StrE false 27 [1966573; 96009496401276042200]; StrE false 27 [2053977; 24721029574666088520]; StrE false 27 [2053977; 24721029574666088520]; StrE false 27 [1966573; 96009496401276042200]; StrE false 27 [1802692; 79675371701169705350]; StrE false 27 [1581954; 90327367003067292450]; StrE false 27 [1328842; 11874988282576525658]; StrE false 27 [1068284; 84056363129130148078]; StrE false 26 [821757; 56966433176253960060]; StrE false 26 [604689; 53239450827809517780]; StrE false 26 [425522; 26353687619569660660]; StrE false 26 [286260; 43183389853165044444]; StrE false 26 [184024; 56332179191320385714]; StrE false 26 [112997; 53888180205196728070]; StrE false 25 [66239; 93658588396149806110]; StrE false 25 [37049; 45605651136829552570]; StrE false 25 [19759; 70989680606309094704]; StrE false 25 [10041; 81978362275337408784]; StrE false 24 [4858; 94505659165485842960]; StrE false 24 [2236; 65724827234906181680]; StrE false 23 [978; 53754611915271454485]; StrE false 23 [406; 46944223410958911863]; StrE false 23 [160; 12432572858862601643]; StrE false 22 [59; 74788273454799478225]; StrE false 22 [21; 8748802395811580550]; StrE false 21 [7; 2916267465270526850]; StrE false 21 [2; 20916541203370737010]; StrE false 20 [65341512186912471510]; StrE false 20 [18150420051920130975]; IntE 4724081931321677925; IntE 1149101010321489225; IntE 260462895672870891; IntE 54834293825867556; IntE 10682005290753420; IntE 1917283000904460; IntE 315502265971620; IntE 47325339895743; IntE 6426898010533; IntE 783768050065; IntE 84986896995; IntE 8093990190; IntE 666563898; IntE 46504458; IntE 2672670; IntE 121485; IntE 4095; IntE 91; IntE 1];
[IntE 1; IntE 92; IntE 4186; IntE 125580; IntE 2794155; IntE 49177128; IntE 713068356; IntE 8760554088; IntE 93080887185; IntE 868754947060; IntE 7210666060598; IntE 53752237906276; IntE 362827605867363; IntE 2232785266876080; IntE 12599288291657880; IntE 65516299116620976; IntE 315297189498738447; IntE 1409563905994360116; IntE 5873182941643167150; StrE false 20 [22874501983241808900]; StrE false 20 [83491932238832602485]; StrE false 21 [2; 86258053390283208520]; StrE false 21 [9; 23832808668641263860]; StrE false 22 [28; 11665069861082107400]; StrE false 22 [80; 83537075850611058775]; StrE false 23 [219; 87220846313662079868]; StrE false 23 [566; 59376796269821513506]; StrE false 24 [1385; 698835326230366348]; StrE false 24 [3215; 19479439150177636165]; StrE false 24 [7095; 60230486400392024640]; StrE false 25 [14900; 76484021440823251744]; StrE false 25 [29801; 52968042881646503488]; StrE false 25 [56809; 16595331743138647274]; StrE false 26 [103289; 39264239532979358680]; StrE false 26 [179237; 47546768601346534180]; StrE false 26 [297022; 10220359396517113784]; StrE false 26 [470284; 99515569044485430158]; StrE false 26 [711782; 69537077472734705104]; StrE false 27 [1030211; 79593138447379178440]; StrE false 27 [1426447; 10205884004063477840]; StrE false 27 [1890042; 41022796305384108138]; StrE false 27 [2397126; 95931351411706673736]; StrE false 27 [2910797; 2202355285643818108]; StrE false 27 [3384647; 70002738704236997800]; StrE false 27 [3769266; 75684868102445747550]; StrE false 27 [4020551; 20730525975942130720]; StrE false 27 [4107954; 49442059149332177040]; StrE false 27 [4020551; 20730525975942130720]; StrE false 27 [3769266; 75684868102445747550]; StrE false 27 [3384647; 70002738704236997800]; StrE false 27 [2910797; 2202355285643818108]; StrE false 27 [2397126; 95931351411706673736]; StrE false 27 [1890042; 41022796305384108138]; StrE false 27 [1426447; 10205884004063477840]; StrE false 27 [1030211; 79593138447379178440]; StrE false 26 [711782; 69537077472734705104]; StrE false 26 [470284; 99515569044485430158]; StrE false 26 [297022; 10220359396517113784]; StrE false 26 [179237; 47546768601346534180]; StrE false 26 [103289; 39264239532979358680]; StrE false 25 [56809; 16595331743138647274]; StrE false 25 [29801; 52968042881646503488]; StrE false 25 [14900; 76484021440823251744]; StrE false 24 [7095; 60230486400392024640]; StrE false 24 [3215; 19479439150177636165]; StrE false 24 [1385; 698835326230366348]; StrE false 23 [566; 59376796269821513506]; StrE false 23 [219; 87220846313662079868]; StrE false 22 [80; 83537075850611058775]; StrE false 22 [28; 11665069861082107400]; StrE false 21 [9; 23832808668641263860]; StrE false 21 [2; 86258053390283208520]; StrE false 20 [83491932238832602485]; StrE false 20 [22874501983241808900]; IntE 5873182941643167150; IntE 1409563905994360116; IntE 315297189498738447; IntE 65516299116620976; IntE 12599288291657880; IntE 2232785266876080; IntE 362827605867363; IntE 53752237906276; IntE 7210666060598; IntE 868754947060; IntE 93080887185; IntE 8760554088; IntE 713068356; IntE 49177128; IntE 2794155; IntE 125580; IntE 4186; IntE 92; IntE 1];
[IntE 1; IntE 93; IntE 4278; IntE 129766; IntE 2919735; IntE 51971283; IntE 762245484; IntE 9473622444; IntE 101841441273; IntE 961835834245; IntE 8079421007658; IntE 60962903966874; IntE 416579843773639; IntE 2595612872743443; IntE 14832073558533960; IntE 78115587408278856; IntE 380813488615359423; IntE 1724861095493098563; IntE 7282746847637527266; StrE false 20 [28747684924884976050]; StrE false 21 [1; 6366434222074411385]; StrE false 21 [3; 69749985629115811005]; StrE false 22 [12; 10090862058924472380]; StrE false 22 [37; 35497878529723371260]; StrE false 23 [108; 95202145711693166175]; StrE false 23 [300; 70757922164273138643]; StrE false 23 [786; 46597642583483593374]; StrE false 24 [1951; 60075631596051879854]; StrE false 24 [4600; 20178274476408002513]; StrE false 25 [10310; 79709925550569660805]; StrE false 25 [21996; 36714507841215276384]; StrE false 25 [44702; 29452064322469755232]; StrE false 25 [86610; 69563374624785150762]; StrE false 26 [160098; 55859571276118005954]; StrE false 26 [282526; 86811008134325892860]; StrE false 26 [476259; 57767127997863647964]; StrE false 26 [767307; 9735928441002543942]; StrE false 27 [1182067; 69052646517220135262]; StrE false 27 [1741994; 49130215920113883544]; StrE false 27 [2456658; 89799022451442656280]; StrE false 27 [3316489; 51228680309447585978]; StrE false 27 [4287169; 36954147717090781874]; StrE false 27 [5307923; 98133706697350491844]; StrE false 27 [6295444; 72205093989880815908]; StrE false 27 [7153914; 45687606806682745350]; StrE false 27 [7789817; 96415394078387878270]; StrE false 27 [8128505; 70172585125274307760]; StrE false 27 [8128505; 70172585125274307760]; StrE false 27 [7789817; 96415394078387878270]; StrE false 27 [7153914; 45687606806682745350]; StrE false 27 [6295444; 72205093989880815908]; StrE false 27 [5307923; 98133706697350491844]; StrE false 27 [4287169; 36954147717090781874]; StrE false 27 [3316489; 51228680309447585978]; StrE false 27 [2456658; 89799022451442656280]; StrE false 27 [1741994; 49130215920113883544]; StrE false 27 [1182067; 69052646517220135262]; StrE false 26 [767307; 9735928441002543942]; StrE false 26 [476259; 57767127997863647964]; StrE false 26 [282526; 86811008134325892860]; StrE false 26 [160098; 55859571276118005954]; StrE false 25 [86610; 69563374624785150762]; StrE false 25 [44702; 29452064322469755232]; StrE false 25 [21996; 36714507841215276384]; StrE false 25 [10310; 79709925550569660805]; StrE false 24 [4600; 20178274476408002513]; StrE false 24 [1951; 60075631596051879854]; StrE false 23 [786; 46597642583483593374]; StrE false 23 [300; 70757922164273138643]; StrE false 23 [108; 95202145711693166175]; StrE false 22 [37; 35497878529723371260]; StrE false 22 [12; 10090862058924472380]; StrE false 21 [3; 69749985629115811005]; StrE false 21 [1; 6366434222074411385]; StrE false 20 [28747684924884976050]; IntE 7282746847637527266; IntE 1724861095493098563; IntE 380813488615359423; IntE 78115587408278856; IntE 14832073558533960; IntE 2595612872743443; IntE 416579843773639; IntE 60962903966874; IntE 8079421007658; IntE 961835834245; IntE 101841441273; IntE 9473622444; IntE 762245484; IntE 51971283; IntE 2919735; IntE 129766; IntE 4278; IntE 93; IntE 1];
[IntE 1; IntE 94; IntE 4371; IntE 134044; IntE 3049501; IntE 54891018; IntE 814216767; IntE 10235867928; IntE 111315063717; IntE 1063677275518; IntE 9041256841903; IntE 69042324974532; IntE 477542747740513; IntE 3012192716517082; IntE 17427686431277403; IntE 92947660966812816; IntE 458929076023638279; IntE 2105674584108457986; IntE 9007607943130625829; StrE false 20 [36030431772522503316]; StrE false 21 [1; 35114119146959387435]; StrE false 21 [4; 76116419851190222390]; StrE false 22 [15; 79840847688040283385]; StrE false 22 [49; 45588740588647843640]; StrE false 23 [146; 30700024241416537435]; StrE false 23 [409; 65960067875966304818]; StrE false 24 [1087; 17355564747756732017]; StrE false 24 [2738; 6673274179535473228]; StrE false 24 [6551; 80253906072459882367]; StrE false 25 [14910; 99888200026977663318]; StrE false 25 [32307; 16424433391784937189]; StrE false 25 [66698; 66166572163685031616]; StrE false 26 [131312; 99015438947254905994]; StrE false 26 [246709; 25422945900903156716]; StrE false 26 [442625; 42670579410443898814]; StrE false 26 [758786; 44578136132189540824]; StrE false 27 [1243566; 67503056438866191906]; StrE false 27 [1949374; 78788574958222679204]; StrE false 27 [2924062; 18182862437334018806]; StrE false 27 [4198653; 38929238371556539824]; StrE false 27 [5773148; 41027702760890242258]; StrE false 27 [7603658; 88182828026538367852]; StrE false 27 [9595093; 35087854414441273718]; StrE false 28 [11603368; 70338800687231307752]; StrE false 28 [13449359; 17892700796563561258]; StrE false 28 [14943732; 42103000885070623620]; StrE false 28 [15918323; 66587979203662186030]; StrE false 28 [16257011; 40345170250548615520]; StrE false 28 [15918323; 66587979203662186030]; StrE false 28 [14943732; 42103000885070623620]; StrE false 28 [13449359; 17892700796563561258]; StrE false 28 [11603368; 70338800687231307752]; StrE false 27 [9595093; 35087854414441273718]; StrE false 27 [7603658; 88182828026538367852]; StrE false 27 [5773148; 41027702760890242258]; StrE false 27 [4198653; 38929238371556539824]; StrE false 27 [2924062; 18182862437334018806]; StrE false 27 [1949374; 78788574958222679204]; StrE false 27 [1243566; 67503056438866191906]; StrE false 26 [758786; 44578136132189540824]; StrE false 26 [442625; 42670579410443898814]; StrE false 26 [246709; 25422945900903156716]; StrE false 26 [131312; 99015438947254905994]; StrE false 25 [66698; 66166572163685031616]; StrE false 25 [32307; 16424433391784937189]; StrE false 25 [14910; 99888200026977663318]; StrE false 24 [6551; 80253906072459882367]; StrE false 24 [2738; 6673274179535473228]; StrE false 24 [1087; 17355564747756732017]; StrE false 23 [409; 65960067875966304818]; StrE false 23 [146; 30700024241416537435]; StrE false 22 [49; 45588740588647843640]; StrE false 22 [15; 79840847688040283385]; StrE false 21 [4; 76116419851190222390]; StrE false 21 [1; 35114119146959387435]; StrE false 20 [36030431772522503316]; IntE 9007607943130625829; IntE 2105674584108457986; IntE 458929076023638279; IntE 92947660966812816; IntE 17427686431277403; IntE 3012192716517082; IntE 477542747740513; IntE 69042324974532; IntE 9041256841903; IntE 1063677275518; IntE 111315063717; IntE 10235867928; IntE 814216767; IntE 54891018; IntE 3049501; IntE 134044; IntE 4371; IntE 94; IntE 1];
[IntE 1; IntE 95; IntE 4465; IntE 138415; IntE 3183545; IntE 57940519; IntE 869107785; IntE 11050084695; IntE 121550931645; IntE 1174992339235; IntE 10104934117421; IntE 78083581816435; IntE 546585072715045; IntE 3489735464257595; IntE 20439879147794485; IntE 110375347398090219; IntE 551876736990451095; IntE 2564603660132096265; StrE false 20 [11113282527239083815]; StrE false 20 [45038039715653129145]; StrE false 21 [1; 71144550919481890751]; StrE false 21 [6; 11230538998149609825]; StrE false 22 [20; 55957267539230505775]; StrE false 22 [65; 25429588276688127025]; StrE false 23 [195; 76288764830064381075]; StrE false 23 [555; 96660092117382842253]; StrE false 24 [1496; 83315632623723036835]; StrE false 24 [3825; 24028838927292205245]; StrE false 24 [9289; 86927180251995355595]; StrE false 25 [21462; 80142106099437545685]; StrE false 25 [47218; 16312633418762600507]; StrE false 25 [99005; 82591005555469968805]; StrE false 26 [198011; 65182011110939937610]; StrE false 26 [378022; 24438384848158062710]; StrE false 26 [689334; 68093525311347055530]; StrE false 27 [1201411; 87248715542633439638]; StrE false 27 [2002353; 12081192571055732730]; StrE false 27 [3192941; 46291631397088871110]; StrE false 27 [4873436; 96971437395556698010]; StrE false 27 [7122715; 57112100808890558630]; StrE false 27 [9971801; 79956941132446782082]; StrE false 28 [13376807; 29210530787428610110]; StrE false 28 [17198752; 23270682440979641570]; StrE false 28 [21198462; 5426655101672581470]; StrE false 28 [25052727; 88231501483794869010]; StrE false 28 [28393091; 59995701681634184878]; StrE false 28 [30862056; 8690980088732809650]; StrE false 28 [32175335; 6933149454210801550]; StrE false 28 [32175335; 6933149454210801550]; StrE false 28 [30862056; 8690980088732809650]; StrE false 28 [28393091; 59995701681634184878]; StrE false 28 [25052727; 88231501483794869010]; StrE false 28 [21198462; 5426655101672581470]; StrE false 28 [17198752; 23270682440979641570]; StrE false 28 [13376807; 29210530787428610110]; StrE false 27 [9971801; 79956941132446782082]; StrE false 27 [7122715; 57112100808890558630]; StrE false 27 [4873436; 96971437395556698010]; StrE false 27 [3192941; 46291631397088871110]; StrE false 27 [2002353; 12081192571055732730]; StrE false 27 [1201411; 87248715542633439638]; StrE false 26 [689334; 68093525311347055530]; StrE false 26 [378022; 24438384848158062710]; StrE false 26 [198011; 65182011110939937610]; StrE false 25 [99005; 82591005555469968805]; StrE false 25 [47218; 16312633418762600507]; StrE false 25 [21462; 80142106099437545685]; StrE false 24 [9289; 86927180251995355595]; StrE false 24 [3825; 24028838927292205245]; StrE false 24 [1496; 83315632623723036835]; StrE false 23 [555; 96660092117382842253]; StrE false 23 [195; 76288764830064381075]; StrE false 22 [65; 25429588276688127025]; StrE false 22 [20; 55957267539230505775]; StrE false 21 [6; 11230538998149609825]; StrE false 21 [1; 71144550919481890751]; StrE false 20 [45038039715653129145]; StrE false 20 [11113282527239083815]; IntE 2564603660132096265; IntE 551876736990451095; IntE 110375347398090219; IntE 20439879147794485; IntE 3489735464257595; IntE 546585072715045; IntE 78083581816435; IntE 10104934117421; IntE 1174992339235; IntE 121550931645; IntE 11050084695; IntE 869107785; IntE 57940519; IntE 3183545; IntE 138415; IntE 4465; IntE 95; IntE 1];
[IntE 1; IntE 96; IntE 4560; IntE 142880; IntE 3321960; IntE 61124064; IntE 927048304; IntE 11919192480; IntE 132601016340; IntE 1296543270880; IntE 11279926456656; IntE 88188515933856; IntE 624668654531480; IntE 4036320536972640; IntE 23929614612052080; IntE 130815226545884704; IntE 662252084388541314; IntE 3116480397122547360; StrE false 20 [13677886187371180080]; StrE false 20 [56151322242892212960]; StrE false 21 [2; 16182590635135019896]; StrE false 21 [7; 82375089917631500576]; StrE false 22 [26; 67187806537380115600]; StrE false 22 [85; 81386855815918632800]; StrE false 23 [261; 1718353106752508100]; StrE false 23 [751; 72948856947447223328]; StrE false 24 [2052; 79975724741105879088]; StrE false 24 [5322; 7344471551015242080]; StrE false 25 [13115; 10956019179287560840]; StrE false 25 [30752; 67069286351432901280]; StrE false 25 [68680; 96454739518200146192]; StrE false 26 [146223; 98903638974232569312]; StrE false 26 [297017; 47773016666409906415]; StrE false 26 [576033; 89620395959098000320]; StrE false 27 [1067356; 92531910159505118240]; StrE false 27 [1890746; 55342240853980495168]; StrE false 27 [3203764; 99329908113689172368]; StrE false 27 [5195294; 58372823968144603840]; StrE false 27 [8066378; 43263068792645569120]; StrE false 28 [11996152; 54083538204447256640]; StrE false 28 [17094517; 37069041941337340712]; StrE false 28 [23348609; 9167471919875392192]; StrE false 28 [30575559; 52481213228408251680]; StrE false 28 [38397214; 28697337542652223040]; StrE false 28 [46251189; 93658156585467450480]; StrE false 28 [53445819; 48227203165429053888]; StrE false 28 [59255147; 68686681770366994528]; StrE false 28 [63037391; 15624129542943611200]; StrE false 28 [64350670; 13866298908421603100]; StrE false 28 [63037391; 15624129542943611200]; StrE false 28 [59255147; 68686681770366994528]; StrE false 28 [53445819; 48227203165429053888]; StrE false 28 [46251189; 93658156585467450480]; StrE false 28 [38397214; 28697337542652223040]; StrE false 28 [30575559; 52481213228408251680]; StrE false 28 [23348609; 9167471919875392192]; StrE false 28 [17094517; 37069041941337340712]; StrE false 28 [11996152; 54083538204447256640]; StrE false 27 [8066378; 43263068792645569120]; StrE false 27 [5195294; 58372823968144603840]; StrE false 27 [3203764; 99329908113689172368]; StrE false 27 [1890746; 55342240853980495168]; StrE false 27 [1067356; 92531910159505118240]; StrE false 26 [576033; 89620395959098000320]; StrE false 26 [297017; 47773016666409906415]; StrE false 26 [146223; 98903638974232569312]; StrE false 25 [68680; 96454739518200146192]; StrE false 25 [30752; 67069286351432901280]; StrE false 25 [13115; 10956019179287560840]; StrE false 24 [5322; 7344471551015242080]; StrE false 24 [2052; 79975724741105879088]; StrE false 23 [751; 72948856947447223328]; StrE false 23 [261; 1718353106752508100]; StrE false 22 [85; 81386855815918632800]; StrE false 22 [26; 67187806537380115600]; StrE false 21 [7; 82375089917631500576]; StrE false 21 [2; 16182590635135019896]; StrE false 20 [56151322242892212960]; StrE false 20 [13677886187371180080]; IntE 3116480397122547360; IntE 662252084388541314; IntE 130815226545884704; IntE 23929614612052080; IntE 4036320536972640; IntE 624668654531480; IntE 88188515933856; IntE 11279926456656; IntE 1296543270880; IntE 132601016340; IntE 11919192480; IntE 927048304; IntE 61124064; IntE 3321960; IntE 142880; IntE 4560; IntE 96; IntE 1];
[IntE 1; IntE 97; IntE 4656; IntE 147440; IntE 3464840; IntE 64446024; IntE 988172368; IntE 12846240784; IntE 144520208820; IntE 1429144287220; IntE 12576469727536; IntE 99468442390512; IntE 712857170465336; IntE 4660989191504120; IntE 27965935149024720; IntE 154744841157936784; IntE 793067310934426018; IntE 3778732481511088674; StrE false 20 [16794366584493727440]; StrE false 20 [69829208430263393040]; StrE false 21 [2; 72333912878027232856]; StrE false 21 [9; 98557680552766520472]; StrE false 22 [34; 49562896455011616176]; StrE false 23 [112; 48574662353298748400]; StrE false 23 [346; 83105208922671140900]; StrE false 24 [1012; 74667210054199731428]; StrE false 24 [2804; 52924581688553102416]; StrE false 24 [7374; 87320196292121121168]; StrE false 25 [18437; 18300490730302802920]; StrE false 25 [43867; 78025305530720462120]; StrE false 25 [99433; 63524025869633047472]; StrE false 26 [214904; 95358378492432715504]; StrE false 26 [443241; 46676655640642475727]; StrE false 26 [873051; 37393412625507906735]; StrE false 27 [1643390; 82152306118603118560]; StrE false 27 [2958103; 47874151013485613408]; StrE false 27 [5094511; 54672148967669667536]; StrE false 27 [8399059; 57702732081833776208]; StrE false 28 [13261673; 1635892760790172960]; StrE false 28 [20062530; 97346606997092825760]; StrE false 28 [29090669; 91152580145784597352]; StrE false 28 [40443126; 46236513861212732904]; StrE false 28 [53924168; 61648685148283643872]; StrE false 28 [68972773; 81178550771060474720]; StrE false 28 [84648404; 22355494128119673520]; StrE false 28 [99697009; 41885359750896504368]; StrE false 29 [112700967; 16913884935796048416]; StrE false 29 [122292538; 84310811313310605728]; StrE false 29 [127388061; 29490428451365214300]; StrE false 29 [127388061; 29490428451365214300]; StrE false 29 [122292538; 84310811313310605728]; StrE false 29 [112700967; 16913884935796048416]; StrE false 28 [99697009; 41885359750896504368]; StrE false 28 [84648404; 22355494128119673520]; StrE false 28 [68972773; 81178550771060474720]; StrE false 28 [53924168; 61648685148283643872]; StrE false 28 [40443126; 46236513861212732904]; StrE false 28 [29090669; 91152580145784597352]; StrE false 28 [20062530; 97346606997092825760]; StrE false 28 [13261673; 1635892760790172960]; StrE false 27 [8399059; 57702732081833776208]; StrE false 27 [5094511; 54672148967669667536]; StrE false 27 [2958103; 47874151013485613408]; StrE false 27 [1643390; 82152306118603118560]; StrE false 26 [873051; 37393412625507906735]; StrE false 26 [443241; 46676655640642475727]; StrE false 26 [214904; 95358378492432715504]; StrE false 25 [99433; 63524025869633047472]; StrE false 25 [43867; 78025305530720462120]; StrE false 25 [18437; 18300490730302802920]; StrE false 24 [7374; 87320196292121121168]; StrE false 24 [2804; 52924581688553102416]; StrE false 24 [1012; 74667210054199731428]; StrE false 23 [346; 83105208922671140900]; StrE false 23 [112; 48574662353298748400]; StrE false 22 [34; 49562896455011616176]; StrE false 21 [9; 98557680552766520472]; StrE false 21 [2; 72333912878027232856]; StrE false 20 [69829208430263393040]; StrE false 20 [16794366584493727440]; IntE 3778732481511088674; IntE 793067310934426018; IntE 154744841157936784; IntE 27965935149024720; IntE 4660989191504120; IntE 712857170465336; IntE 99468442390512; IntE 12576469727536; IntE 1429144287220; IntE 144520208820; IntE 12846240784; IntE 988172368; IntE 64446024; IntE 3464840; IntE 147440; IntE 4656; IntE 97; IntE 1];
[IntE 1; IntE 98; IntE 4753; IntE 152096; IntE 3612280; IntE 67910864; IntE 1052618392; IntE 13834413152; IntE 157366449604; IntE 1573664496040; IntE 14005614014756; IntE 112044912118048; IntE 812325612855848; IntE 5373846361969456; IntE 32626924340528840; IntE 182710776306961504; IntE 947812152092362802; IntE 4571799792445514692; StrE false 20 [20573099066004816114]; StrE false 20 [86623575014757120480]; StrE false 21 [3; 42163121308290625896]; StrE false 22 [12; 70891593430793753328]; StrE false 22 [44; 48120577007778136648]; StrE false 23 [146; 98137558808310364576]; StrE false 23 [459; 31679871275969889300]; StrE false 24 [1359; 57772418976870872328]; StrE false 24 [3817; 27591791742752833844]; StrE false 25 [10179; 40244777980674223584]; StrE false 25 [25812; 5620687022423924088]; StrE false 25 [62304; 96325796261023265040]; StrE false 26 [143301; 41549331400353509592]; StrE false 26 [314338; 58882404362065762976]; StrE false 26 [658146; 42035034133075191231]; StrE false 27 [1316292; 84070068266150382462]; StrE false 27 [2516442; 19545718744111025295]; StrE false 27 [4601494; 30026457132088731968]; StrE false 27 [8052615; 2546299981155280944]; StrE false 28 [13493571; 12374881049503443744]; StrE false 28 [21660732; 59338624842623949168]; StrE false 28 [33324203; 98982499757882998720]; StrE false 28 [49153200; 88499187142877423112]; StrE false 28 [69533796; 37389094006997330256]; StrE false 28 [94367295; 7885199009496376776]; StrE false 29 [122896942; 42827235919344118592]; StrE false 29 [153621178; 3534044899180148240]; StrE false 29 [184345413; 64240853879016177888]; StrE false 29 [212397976; 58799244686692552784]; StrE false 29 [234993506; 1224696249106654144]; StrE false 29 [249680600; 13801239764675820028]; StrE false 29 [254776122; 58980856902730428600]; StrE false 29 [249680600; 13801239764675820028]; StrE false 29 [234993506; 1224696249106654144]; StrE false 29 [212397976; 58799244686692552784]; StrE false 29 [184345413; 64240853879016177888]; StrE false 29 [153621178; 3534044899180148240]; StrE false 29 [122896942; 42827235919344118592]; StrE false 28 [94367295; 7885199009496376776]; StrE false 28 [69533796; 37389094006997330256]; StrE false 28 [49153200; 88499187142877423112]; StrE false 28 [33324203; 98982499757882998720]; StrE false 28 [21660732; 59338624842623949168]; StrE false 28 [13493571; 12374881049503443744]; StrE false 27 [8052615; 2546299981155280944]; StrE false 27 [4601494; 30026457132088731968]; StrE false 27 [2516442; 19545718744111025295]; StrE false 27 [1316292; 84070068266150382462]; StrE false 26 [658146; 42035034133075191231]; StrE false 26 [314338; 58882404362065762976]; StrE false 26 [143301; 41549331400353509592]; StrE false 25 [62304; 96325796261023265040]; StrE false 25 [25812; 5620687022423924088]; StrE false 25 [10179; 40244777980674223584]; StrE false 24 [3817; 27591791742752833844]; StrE false 24 [1359; 57772418976870872328]; StrE false 23 [459; 31679871275969889300]; StrE false 23 [146; 98137558808310364576]; StrE false 22 [44; 48120577007778136648]; StrE false 22 [12; 70891593430793753328]; StrE false 21 [3; 42163121308290625896]; StrE false 20 [86623575014757120480]; StrE false 20 [20573099066004816114]; IntE 4571799792445514692; IntE 947812152092362802; IntE 182710776306961504; IntE 32626924340528840; IntE 5373846361969456; IntE 812325612855848; IntE 112044912118048; IntE 14005614014756; IntE 1573664496040; IntE 157366449604; IntE 13834413152; IntE 1052618392; IntE 67910864; IntE 3612280; IntE 152096; IntE 4753; IntE 98; IntE 1];
[IntE 1; IntE 99; IntE 4851; IntE 156849; IntE 3764376; IntE 71523144; IntE 1120529256; IntE 14887031544; IntE 171200862756; IntE 1731030945644; IntE 15579278510796; IntE 126050526132804; IntE 924370524973896; IntE 6186171974825304; IntE 38000770702498296; IntE 215337700647490344; IntE 1130522928399324306; IntE 5519611944537877494; StrE false 20 [25144898858450330806]; StrE false 21 [1; 7196674080761936594]; StrE false 21 [4; 28786696323047746376]; StrE false 22 [16; 13054714739084379224]; StrE false 22 [57; 19012170438571889976]; StrE false 23 [191; 46258135816088501224]; StrE false 23 [606; 29817430084280253876]; StrE false 24 [1818; 89452290252840761628]; StrE false 24 [5176; 85364210719623706172]; StrE false 25 [13996; 67836569723427057428]; StrE false 25 [35991; 45865465003098147672]; StrE false 25 [88117; 1946483283447189128]; StrE false 26 [205606; 37875127661376774632]; StrE false 26 [457640; 431735762419272568]; StrE false 26 [972485; 917438495140954207]; StrE false 27 [1974439; 26105102399225573693]; StrE false 27 [3832735; 3615787010261407757]; StrE false 27 [7117936; 49572175876199757263]; StrE false 28 [12654109; 32572757113244012912]; StrE false 28 [21546186; 14921181030658724688]; StrE false 28 [35154303; 71713505892127392912]; StrE false 28 [54984936; 58321124600506947888]; StrE false 28 [82477404; 87481686900760421832]; StrE false 29 [118686997; 25888281149874753368]; StrE false 29 [163901091; 45274293016493707032]; StrE false 29 [217264237; 50712434928840495368]; StrE false 29 [276518120; 46361280818524266832]; StrE false 29 [337966591; 67774898778196326128]; StrE false 29 [396743390; 23040098565708730672]; StrE false 29 [447391482; 60023940935799206928]; StrE false 29 [484674106; 15025936013782474172]; StrE false 29 [504456722; 72782096667406248628]; StrE false 29 [504456722; 72782096667406248628]; StrE false 29 [484674106; 15025936013782474172]; StrE false 29 [447391482; 60023940935799206928]; StrE false 29 [396743390; 23040098565708730672]; StrE false 29 [337966591; 67774898778196326128]; StrE false 29 [276518120; 46361280818524266832]; StrE false 29 [217264237; 50712434928840495368]; StrE false 29 [163901091; 45274293016493707032]; StrE false 29 [118686997; 25888281149874753368]; StrE false 28 [82477404; 87481686900760421832]; StrE false 28 [54984936; 58321124600506947888]; StrE false 28 [35154303; 71713505892127392912]; StrE false 28 [21546186; 14921181030658724688]; StrE false 28 [12654109; 32572757113244012912]; StrE false 27 [7117936; 49572175876199757263]; StrE false 27 [3832735; 3615787010261407757]; StrE false 27 [1974439; 26105102399225573693]; StrE false 26 [972485; 917438495140954207]; StrE false 26 [457640; 431735762419272568]; StrE false 26 [205606; 37875127661376774632]; StrE false 25 [88117; 1946483283447189128]; StrE false 25 [35991; 45865465003098147672]; StrE false 25 [13996; 67836569723427057428]; StrE false 24 [5176; 85364210719623706172]; StrE false 24 [1818; 89452290252840761628]; StrE false 23 [606; 29817430084280253876]; StrE false 23 [191; 46258135816088501224]; StrE false 22 [57; 19012170438571889976]; StrE false 22 [16; 13054714739084379224]; StrE false 21 [4; 28786696323047746376]; StrE false 21 [1; 7196674080761936594]; StrE false 20 [25144898858450330806]; IntE 5519611944537877494; IntE 1130522928399324306; IntE 215337700647490344; IntE 38000770702498296; IntE 6186171974825304; IntE 924370524973896; IntE 126050526132804; IntE 15579278510796; IntE 1731030945644; IntE 171200862756; IntE 14887031544; IntE 1120529256; IntE 71523144; IntE 3764376; IntE 156849; IntE 4851; IntE 99; IntE 1];
[IntE 1; IntE 100; IntE 4950; IntE 161700; IntE 3921225; IntE 75287520; IntE 1192052400; IntE 16007560800; IntE 186087894300; IntE 1902231808400; IntE 17310309456440; IntE 141629804643600; IntE 1050421051106700; IntE 7110542499799200; IntE 44186942677323600; IntE 253338471349988640; IntE 1345860629046814650; IntE 6650134872937201800; StrE false 20 [30664510802988208300]; StrE false 21 [1; 32341572939212267400]; StrE false 21 [5; 35983370403809682970]; StrE false 22 [20; 41841411062132125600]; StrE false 22 [73; 32066885177656269200]; StrE false 23 [248; 65270306254660391200]; StrE false 23 [797; 76075565900368755100]; StrE false 24 [2425; 19269720337121015504]; StrE false 24 [6995; 74816500972464467800]; StrE false 25 [19173; 53200780443050763600]; StrE false 25 [49988; 13702034726525205100]; StrE false 26 [124108; 47811948286545336800]; StrE false 26 [293723; 39821610944823963760]; StrE false 26 [663246; 38306863423796047200]; StrE false 27 [1430125; 1349174257560226775]; StrE false 27 [2946924; 27022540894366527900]; StrE false 27 [5807174; 29720889409486981450]; StrE false 28 [10950671; 53187962886461165020]; StrE false 28 [19772045; 82144932989443770175]; StrE false 28 [34200295; 47493938143902737600]; StrE false 28 [56700489; 86634686922786117600]; StrE false 28 [90139240; 30034630492634340800]; StrE false 29 [137462341; 45802811501267369720]; StrE false 29 [201164402; 13369968050635175200]; StrE false 29 [282588088; 71162574166368460400]; StrE false 29 [381165328; 95986727945334202400]; StrE false 29 [493782357; 97073715747364762200]; StrE false 29 [614484712; 14136179596720592960]; StrE false 29 [734709981; 90814997343905056800]; StrE false 29 [844134872; 83064039501507937600]; StrE false 29 [932065588; 75049876949581681100]; StrE false 29 [989130828; 87808032681188722800]; StrE false 30 [1008913445; 45564193334812497256]; StrE false 29 [989130828; 87808032681188722800]; StrE false 29 [932065588; 75049876949581681100]; StrE false 29 [844134872; 83064039501507937600]; StrE false 29 [734709981; 90814997343905056800]; StrE false 29 [614484712; 14136179596720592960]; StrE false 29 [493782357; 97073715747364762200]; StrE false 29 [381165328; 95986727945334202400]; StrE false 29 [282588088; 71162574166368460400]; StrE false 29 [201164402; 13369968050635175200]; StrE false 29 [137462341; 45802811501267369720]; StrE false 28 [90139240; 30034630492634340800]; StrE false 28 [56700489; 86634686922786117600]; StrE false 28 [34200295; 47493938143902737600]; StrE false 28 [19772045; 82144932989443770175]; StrE false 28 [10950671; 53187962886461165020]; StrE false 27 [5807174; 29720889409486981450]; StrE false 27 [2946924; 27022540894366527900]; StrE false 27 [1430125; 1349174257560226775]; StrE false 26 [663246; 38306863423796047200]; StrE false 26 [293723; 39821610944823963760]; StrE false 26 [124108; 47811948286545336800]; StrE false 25 [49988; 13702034726525205100]; StrE false 25 [19173; 53200780443050763600]; StrE false 24 [6995; 74816500972464467800]; StrE false 24 [2425; 19269720337121015504]; StrE false 23 [797; 76075565900368755100]; StrE false 23 [248; 65270306254660391200]; StrE false 22 [73; 32066885177656269200]; StrE false 22 [20; 41841411062132125600]; StrE false 21 [5; 35983370403809682970]; StrE false 21 [1; 32341572939212267400]; StrE false 20 [30664510802988208300]; IntE 6650134872937201800; IntE 1345860629046814650; IntE 253338471349988640; IntE 44186942677323600; IntE 7110542499799200; IntE 1050421051106700; IntE 141629804643600; IntE 17310309456440; IntE 1902231808400; IntE 186087894300; IntE 16007560800; IntE 1192052400; IntE 75287520; IntE 3921225; IntE 161700; IntE 4950; IntE 100; IntE 1];
[IntE 1; IntE 101; IntE 5050; IntE 166650; IntE 4082925; IntE 79208745; IntE 1267339920; IntE 17199613200; IntE 202095455100; IntE 2088319702700; IntE 19212541264840; IntE 158940114100040; IntE 1192050855750300; IntE 8160963550905900; IntE 51297485177122800; IntE 297525414027312240; IntE 1599199100396803290; IntE 7995995501984016450; StrE false 20 [37314645675925410100]; StrE false 21 [1; 63006083742200475700]; StrE false 21 [6; 68324943343021950370]; StrE false 22 [25; 77824781465941808570]; StrE false 22 [93; 73908296239788394800]; StrE false 23 [321; 97337191432316660400]; StrE false 24 [1046; 41345872155029146300]; StrE false 24 [3222; 95345286237489770604]; StrE false 24 [9420; 94086221309585483304]; StrE false 25 [26169; 28017281415515231400]; StrE false 25 [69161; 66902815169575968700]; StrE false 26 [174096; 61513983013070541900]; StrE false 26 [417831; 87633559231369300560]; StrE false 26 [956969; 78128474368620010960]; StrE false 27 [2093371; 39656037681356273975]; StrE false 27 [4377049; 28371715151926754675]; StrE false 27 [8754098; 56743430303853509350]; StrE false 28 [16757845; 82908852295948146470]; StrE false 28 [30722717; 35332895875904935195]; StrE false 28 [53972341; 29638871133346507775]; StrE false 28 [90900785; 34128625066688855200]; StrE false 29 [146839730; 16669317415420458400]; StrE false 29 [227601581; 75837441993901710520]; StrE false 29 [338626743; 59172779551902544920]; StrE false 29 [483752490; 84532542217003635600]; StrE false 29 [663753417; 67149302111702662800]; StrE false 29 [874947686; 93060443692698964600]; StrE false 30 [1108267070; 11209895344085355160]; StrE false 30 [1349194694; 4951176940625649760]; StrE false 30 [1578844854; 73879036845412994400]; StrE false 30 [1776200461; 58113916451089618700]; StrE false 30 [1921196417; 62857909630770403900]; StrE false 30 [1998044274; 33372226016001220056]; StrE false 30 [1998044274; 33372226016001220056]; StrE false 30 [1921196417; 62857909630770403900]; StrE false 30 [1776200461; 58113916451089618700]; StrE false 30 [1578844854; 73879036845412994400]; StrE false 30 [1349194694; 4951176940625649760]; StrE false 30 [1108267070; 11209895344085355160]; StrE false 29 [874947686; 93060443692698964600]; StrE false 29 [663753417; 67149302111702662800]; StrE false 29 [483752490; 84532542217003635600]; StrE false 29 [338626743; 59172779551902544920]; StrE false 29 [227601581; 75837441993901710520]; StrE false 29 [146839730; 16669317415420458400]; StrE false 28 [90900785; 34128625066688855200]; StrE false 28 [53972341; 29638871133346507775]; StrE false 28 [30722717; 35332895875904935195]; StrE false 28 [16757845; 82908852295948146470]; StrE false 27 [8754098; 56743430303853509350]; StrE false 27 [4377049; 28371715151926754675]; StrE false 27 [2093371; 39656037681356273975]; StrE false 26 [956969; 78128474368620010960]; StrE false 26 [417831; 87633559231369300560]; StrE false 26 [174096; 61513983013070541900]; StrE false 25 [69161; 66902815169575968700]; StrE false 25 [26169; 28017281415515231400]; StrE false 24 [9420; 94086221309585483304]; StrE false 24 [3222; 95345286237489770604]; StrE false 24 [1046; 41345872155029146300]; StrE false 23 [321; 97337191432316660400]; StrE false 22 [93; 73908296239788394800]; StrE false 22 [25; 77824781465941808570]; StrE false 21 [6; 68324943343021950370]; StrE false 21 [1; 63006083742200475700]; StrE false 20 [37314645675925410100]; IntE 7995995501984016450; IntE 1599199100396803290; IntE 297525414027312240; IntE 51297485177122800; IntE 8160963550905900; IntE 1192050855750300; IntE 158940114100040; IntE 19212541264840; IntE 2088319702700; IntE 202095455100; IntE 17199613200; IntE 1267339920; IntE 79208745; IntE 4082925; IntE 166650; IntE 5050; IntE 101; IntE 1];
[IntE 1; IntE 102; IntE 5151; IntE 171700; IntE 4249575; IntE 83291670; IntE 1346548665; IntE 18466953120; IntE 219295068300; IntE 2290415157800; IntE 21300860967540; IntE 178152655364880; IntE 1350990969850340; IntE 9353014406656200; IntE 59458448728028700; IntE 348822899204435040; IntE 1896724514424115530; StrE false 19 [9595194602380819740]; StrE false 20 [45310641177909426550]; StrE false 21 [2; 320729418125885800]; StrE false 21 [8; 31331027085222426070]; StrE false 22 [32; 46149724808963758940]; StrE false 23 [119; 51733077705730203370]; StrE false 23 [415; 71245487672105055200]; StrE false 24 [1368; 38683063587345806700]; StrE false 24 [4269; 36691158392518916904]; StrE false 25 [12643; 89431507547075253908]; StrE false 25 [35590; 22103502725100714704]; StrE false 25 [95330; 94920096585091200100]; StrE false 26 [243258; 28416798182646510600]; StrE false 26 [591928; 49147542244439842460]; StrE false 27 [1374801; 65762033599989311520]; StrE false 27 [3050341; 17784512049976284935]; StrE false 27 [6470420; 68027752833283028650]; StrE false 28 [13131147; 85115145455780264025]; StrE false 28 [25511944; 39652282599801655820]; StrE false 28 [47480563; 18241748171853081665]; StrE false 28 [84695058; 64971767009251442970]; StrE false 29 [144873126; 63767496200035362975]; StrE false 29 [237740515; 50797942482109313600]; StrE false 29 [374441311; 92506759409322168920]; StrE false 29 [566228325; 35010221545804255440]; StrE false 29 [822379234; 43705321768906180520]; StrE false 30 [1147505908; 51681844328706298400]; StrE false 30 [1538701104; 60209745804401627400]; StrE false 30 [1983214757; 4270339036784319760]; StrE false 30 [2457461764; 16161072284711004920]; StrE false 30 [2928039548; 78830213786038644160]; StrE false 30 [3355045316; 31992953296502613100]; StrE false 30 [3697396879; 20971826081860022600]; StrE false 30 [3919240691; 96230135646771623956]; StrE false 30 [3996088548; 66744452032002440112]; StrE false 30 [3919240691; 96230135646771623956]; StrE false 30 [3697396879; 20971826081860022600]; StrE false 30 [3355045316; 31992953296502613100]; StrE false 30 [2928039548; 78830213786038644160]; StrE false 30 [2457461764; 16161072284711004920]; StrE false 30 [1983214757; 4270339036784319760]; StrE false 30 [1538701104; 60209745804401627400]; StrE false 30 [1147505908; 51681844328706298400]; StrE false 29 [822379234; 43705321768906180520]; StrE false 29 [566228325; 35010221545804255440]; StrE false 29 [374441311; 92506759409322168920]; StrE false 29 [237740515; 50797942482109313600]; StrE false 29 [144873126; 63767496200035362975]; StrE false 28 [84695058; 64971767009251442970]; StrE false 28 [47480563; 18241748171853081665]; StrE false 28 [25511944; 39652282599801655820]; StrE false 28 [13131147; 85115145455780264025]; StrE false 27 [6470420; 68027752833283028650]; StrE false 27 [3050341; 17784512049976284935]; StrE false 27 [1374801; 65762033599989311520]; StrE false 26 [591928; 49147542244439842460]; StrE false 26 [243258; 28416798182646510600]; StrE false 25 [95330; 94920096585091200100]; StrE false 25 [35590; 22103502725100714704]; StrE false 25 [12643; 89431507547075253908]; StrE false 24 [4269; 36691158392518916904]; StrE false 24 [1368; 38683063587345806700]; StrE false 23 [415; 71245487672105055200]; StrE false 23 [119; 51733077705730203370]; StrE false 22 [32; 46149724808963758940]; StrE false 21 [8; 31331027085222426070]; StrE false 21 [2; 320729418125885800]; StrE false 20 [45310641177909426550]; StrE false 19 [9595194602380819740]; IntE 1896724514424115530; IntE 348822899204435040; IntE 59458448728028700; IntE 9353014406656200; IntE 1350990969850340; IntE 178152655364880; IntE 21300860967540; IntE 2290415157800; IntE 219295068300; IntE 18466953120; IntE 1346548665; IntE 83291670; IntE 4249575; IntE 171700; IntE 5151; IntE 102; IntE 1];
[IntE 1; IntE 103; IntE 5253; IntE 176851; IntE 4421275; IntE 87541245; IntE 1429840335; IntE 19813501785; IntE 237762021420; IntE 2509710226100; IntE 23591276125340; IntE 199453516332420; IntE 1529143625215220; IntE 10704005376506540; IntE 68811463134684900; IntE 408281347932463740; IntE 2245547413628550570; StrE false 20 [11491919116804935270]; StrE false 20 [54905835780290246290]; StrE false 21 [2; 45631370596035312350]; StrE false 22 [10; 31651756503348311870]; StrE false 22 [40; 77480751894186185010]; StrE false 23 [151; 97882802514693962310]; StrE false 23 [535; 22978565377835258570]; StrE false 24 [1784; 9928551259450861900]; StrE false 24 [5637; 75374221979864723604]; StrE false 25 [16913; 26122665939594170812]; StrE false 25 [48234; 11535010272175968612]; StrE false 26 [130921; 17023599310191914804]; StrE false 26 [338589; 23336894767737710700]; StrE false 26 [835186; 77564340427086353060]; StrE false 27 [1966730; 14909575844429153980]; StrE false 27 [4425142; 83546545649965596455]; StrE false 27 [9520761; 85812264883259313585]; StrE false 28 [19601568; 53142898289063292675]; StrE false 28 [38643092; 24767428055581919845]; StrE false 28 [72992507; 57894030771654737485]; StrE false 29 [132175621; 83213515181104524635]; StrE false 29 [229568185; 28739263209286805945]; StrE false 29 [382613642; 14565438682144676575]; StrE false 29 [612181827; 43304701891431482520]; StrE false 29 [940669637; 27516980955126424360]; StrE false 30 [1388607559; 78715543314710435960]; StrE false 30 [1969885142; 95387166097612478920]; StrE false 30 [2686207013; 11891590133107925800]; StrE false 30 [3521915861; 64480084841185947160]; StrE false 30 [4440676521; 20431411321495324680]; StrE false 30 [5385501312; 94991286070749649080]; StrE false 30 [6283084865; 10823167082541257260]; StrE false 30 [7052442195; 52964779378362635700]; StrE false 30 [7616637571; 17201961728631646556]; StrE false 30 [7915329240; 62974587678774064068]; StrE false 30 [7915329240; 62974587678774064068]; StrE false 30 [7616637571; 17201961728631646556]; StrE false 30 [7052442195; 52964779378362635700]; StrE false 30 [6283084865; 10823167082541257260]; StrE false 30 [5385501312; 94991286070749649080]; StrE false 30 [4440676521; 20431411321495324680]; StrE false 30 [3521915861; 64480084841185947160]; StrE false 30 [2686207013; 11891590133107925800]; StrE false 30 [1969885142; 95387166097612478920]; StrE false 30 [1388607559; 78715543314710435960]; StrE false 29 [940669637; 27516980955126424360]; StrE false 29 [612181827; 43304701891431482520]; StrE false 29 [382613642; 14565438682144676575]; StrE false 29 [229568185; 28739263209286805945]; StrE false 29 [132175621; 83213515181104524635]; StrE false 28 [72992507; 57894030771654737485]; StrE false 28 [38643092; 24767428055581919845]; StrE false 28 [19601568; 53142898289063292675]; StrE false 27 [9520761; 85812264883259313585]; StrE false 27 [4425142; 83546545649965596455]; StrE false 27 [1966730; 14909575844429153980]; StrE false 26 [835186; 77564340427086353060]; StrE false 26 [338589; 23336894767737710700]; StrE false 26 [130921; 17023599310191914804]; StrE false 25 [48234; 11535010272175968612]; StrE false 25 [16913; 26122665939594170812]; StrE false 24 [5637; 75374221979864723604]; StrE false 24 [1784; 9928551259450861900]; StrE false 23 [535; 22978565377835258570]; StrE false 23 [151; 97882802514693962310]; StrE false 22 [40; 77480751894186185010]; StrE false 22 [10; 31651756503348311870]; StrE false 21 [2; 45631370596035312350]; StrE false 20 [54905835780290246290]; StrE false 20 [11491919116804935270]; IntE 2245547413628550570; IntE 408281347932463740; IntE 68811463134684900; IntE 10704005376506540; IntE 1529143625215220; IntE 199453516332420; IntE 23591276125340; IntE 2509710226100; IntE 237762021420; IntE 19813501785; IntE 1429840335; IntE 87541245; IntE 4421275; IntE 176851; IntE 5253; IntE 103; IntE 1];
[IntE 1; IntE 104; IntE 5356; IntE 182104; IntE 4598126; IntE 91962520; IntE 1517381580; IntE 21243342120; IntE 257575523205; IntE 2747472247520; IntE 26100986351440; IntE 223044792457760; IntE 1728597141547640; IntE 12233149001721760; IntE 79515468511191440; IntE 477092811067148640; IntE 2653828761561014310; StrE false 20 [13737466530433485840]; StrE false 20 [66397754897095181560]; StrE false 21 [3; 537206376325558640]; StrE false 22 [12; 77283127099383624220]; StrE false 22 [51; 9132508397534496880]; StrE false 23 [192; 75363554408880147320]; StrE false 23 [687; 20861367892529220880]; StrE false 24 [2319; 32907116637286120470]; StrE false 24 [7421; 85302773239315585504]; StrE false 25 [22551; 1496887919458894416]; StrE false 25 [65147; 37657676211770139424]; StrE false 26 [179155; 28558609582367883416]; StrE false 26 [469510; 40360494077929625504]; StrE false 27 [1173776; 901235194824063760]; StrE false 27 [2801916; 92473916271515507040]; StrE false 27 [6391872; 98456121494394750435]; StrE false 28 [13945904; 69358810533224910040]; StrE false 28 [29122330; 38955163172322606260]; StrE false 28 [58244660; 77910326344645212520]; StrE false 29 [111635599; 82661458827236657330]; StrE false 29 [205168129; 41107545952759262120]; StrE false 29 [361743807; 11952778390391330580]; StrE false 29 [612181827; 43304701891431482520]; StrE false 29 [994795469; 57870140573576159095]; StrE false 30 [1552851464; 70821682846557906880]; StrE false 30 [2329277197; 6232524269836860320]; StrE false 30 [3358492702; 74102709412322914880]; StrE false 30 [4656092156; 7278756230720404720]; StrE false 30 [6208122874; 76371674974293872960]; StrE false 30 [7962592382; 84911496162681271840]; StrE false 30 [9826177834; 15422697392244973760]; StrE false 31 [11668586178; 5814453153290906340]; StrE false 31 [13335527060; 63787946460903892960]; StrE false 31 [14669079766; 70166741106994282256]; StrE false 31 [15531966811; 80176549407405710624]; StrE false 31 [15830658481; 25949175357548128136]; StrE false 31 [15531966811; 80176549407405710624]; StrE false 31 [14669079766; 70166741106994282256]; StrE false 31 [13335527060; 63787946460903892960]; StrE false 31 [11668586178; 5814453153290906340]; StrE false 30 [9826177834; 15422697392244973760]; StrE false 30 [7962592382; 84911496162681271840]; StrE false 30 [6208122874; 76371674974293872960]; StrE false 30 [4656092156; 7278756230720404720]; StrE false 30 [3358492702; 74102709412322914880]; StrE false 30 [2329277197; 6232524269836860320]; StrE false 30 [1552851464; 70821682846557906880]; StrE false 29 [994795469; 57870140573576159095]; StrE false 29 [612181827; 43304701891431482520]; StrE false 29 [361743807; 11952778390391330580]; StrE false 29 [205168129; 41107545952759262120]; StrE false 29 [111635599; 82661458827236657330]; StrE false 28 [58244660; 77910326344645212520]; StrE false 28 [29122330; 38955163172322606260]; StrE false 28 [13945904; 69358810533224910040]; StrE false 27 [6391872; 98456121494394750435]; StrE false 27 [2801916; 92473916271515507040]; StrE false 27 [1173776; 901235194824063760]; StrE false 26 [469510; 40360494077929625504]; StrE false 26 [179155; 28558609582367883416]; StrE false 25 [65147; 37657676211770139424]; StrE false 25 [22551; 1496887919458894416]; StrE false 24 [7421; 85302773239315585504]; StrE false 24 [2319; 32907116637286120470]; StrE false 23 [687; 20861367892529220880]; StrE false 23 [192; 75363554408880147320]; StrE false 22 [51; 9132508397534496880]; StrE false 22 [12; 77283127099383624220]; StrE false 21 [3; 537206376325558640]; StrE false 20 [66397754897095181560]; StrE false 20 [13737466530433485840]; IntE 2653828761561014310; IntE 477092811067148640; IntE 79515468511191440; IntE 12233149001721760; IntE 1728597141547640; IntE 223044792457760; IntE 26100986351440; IntE 2747472247520; IntE 257575523205; IntE 21243342120; IntE 1517381580; IntE 91962520; IntE 4598126; IntE 182104; IntE 5356; IntE 104; IntE 1];
[IntE 1; IntE 105; IntE 5460; IntE 187460; IntE 4780230; IntE 96560646; IntE 1609344100; IntE 22760723700; IntE 278818865325; IntE 3005047770725; IntE 28848458598960; IntE 249145778809200; IntE 1951641934005400; IntE 13961746143269400; IntE 91748617512913200; IntE 556608279578340080; IntE 3130921572628162950; StrE false 20 [16391295291994500150]; StrE false 20 [80135221427528667400]; StrE false 21 [3; 66934961273420740200]; StrE false 22 [15; 77820333475709182860]; StrE false 22 [63; 86415635496918121100]; StrE false 23 [243; 84496062806414644200]; StrE false 23 [879; 96224922301409368200]; StrE false 24 [3006; 53768484529815341350]; StrE false 24 [9741; 18209889876601705974]; StrE false 25 [29972; 86799661158774479920]; StrE false 25 [87698; 39154564131229033840]; StrE false 26 [244302; 66216285794138022840]; StrE false 26 [648665; 68919103660297508920]; StrE false 27 [1643286; 41261729272753689264]; StrE false 27 [3975692; 93375151466339570800]; StrE false 27 [9193789; 90930037765910257475]; StrE false 28 [20337777; 67814932027619660475]; StrE false 28 [43068235; 8313973705547516300]; StrE false 28 [87366991; 16865489516967818780]; StrE false 29 [169880260; 60571785171881869850]; StrE false 29 [316803729; 23769004779995919450]; StrE false 29 [566911936; 53060324343150592700]; StrE false 29 [973925634; 55257480281822813100]; StrE false 30 [1606977297; 1174842465007641615]; StrE false 30 [2547646934; 28691823420134065975]; StrE false 30 [3882128661; 77054207116394767200]; StrE false 30 [5687769899; 80335233682159775200]; StrE false 30 [8014584858; 81381465643043319600]; StrE false 31 [10864215030; 83650431205014277680]; StrE false 31 [14170715257; 61283171136975144800]; StrE false 31 [17788770217; 334193554926245600]; StrE false 31 [21494764012; 21237150545535880100]; StrE false 31 [25004113238; 69602399614194799300]; StrE false 31 [28004606827; 33954687567898175216]; StrE false 31 [30201046578; 50343290514399992880]; StrE false 31 [31362625293; 6125724764953838760]; StrE false 31 [31362625293; 6125724764953838760]; StrE false 31 [30201046578; 50343290514399992880]; StrE false 31 [28004606827; 33954687567898175216]; StrE false 31 [25004113238; 69602399614194799300]; StrE false 31 [21494764012; 21237150545535880100]; StrE false 31 [17788770217; 334193554926245600]; StrE false 31 [14170715257; 61283171136975144800]; StrE false 31 [10864215030; 83650431205014277680]; StrE false 30 [8014584858; 81381465643043319600]; StrE false 30 [5687769899; 80335233682159775200]; StrE false 30 [3882128661; 77054207116394767200]; StrE false 30 [2547646934; 28691823420134065975]; StrE false 30 [1606977297; 1174842465007641615]; StrE false 29 [973925634; 55257480281822813100]; StrE false 29 [566911936; 53060324343150592700]; StrE false 29 [316803729; 23769004779995919450]; StrE false 29 [169880260; 60571785171881869850]; StrE false 28 [87366991; 16865489516967818780]; StrE false 28 [43068235; 8313973705547516300]; StrE false 28 [20337777; 67814932027619660475]; StrE false 27 [9193789; 90930037765910257475]; StrE false 27 [3975692; 93375151466339570800]; StrE false 27 [1643286; 41261729272753689264]; StrE false 26 [648665; 68919103660297508920]; StrE false 26 [244302; 66216285794138022840]; StrE false 25 [87698; 39154564131229033840]; StrE false 25 [29972; 86799661158774479920]; StrE false 24 [9741; 18209889876601705974]; StrE false 24 [3006; 53768484529815341350]; StrE false 23 [879; 96224922301409368200]; StrE false 23 [243; 84496062806414644200]; StrE false 22 [63; 86415635496918121100]; StrE false 22 [15; 77820333475709182860]; StrE false 21 [3; 66934961273420740200]; StrE false 20 [80135221427528667400]; StrE false 20 [16391295291994500150]; IntE 3130921572628162950; IntE 556608279578340080; IntE 91748617512913200; IntE 13961746143269400; IntE 1951641934005400; IntE 249145778809200; IntE 28848458598960; IntE 3005047770725; IntE 278818865325; IntE 22760723700; IntE 1609344100; IntE 96560646; IntE 4780230; IntE 187460; IntE 5460; IntE 105; IntE 1];
[IntE 1; IntE 106; IntE 5565; IntE 192920; IntE 4967690; IntE 101340876; IntE 1705904746; IntE 24370067800; IntE 301579589025; IntE 3283866636050; IntE 31853506369685; IntE 277994237408160; IntE 2200787712814600; IntE 15913388077274800; IntE 105710363656182600; IntE 648356897091253280; IntE 3687529852206503030; StrE false 20 [19522216864622663100]; StrE false 20 [96526516719523167550]; StrE false 21 [4; 47070182700949407600]; StrE false 22 [19; 44755294749129923060]; StrE false 22 [79; 64235968972627303960]; StrE false 23 [307; 70911698303332765300]; StrE false 24 [1123; 80720985107824012400]; StrE false 24 [3886; 49993406831224709550]; StrE false 25 [12747; 71978374406417047324]; StrE false 25 [39714; 5009551035376185894]; StrE false 26 [117671; 25954225290003513760]; StrE false 26 [332001; 5370849925367056680]; StrE false 26 [892968; 35135389454435531760]; StrE false 27 [2291952; 10180832933051198184]; StrE false 27 [5618979; 34636880739093260064]; StrE false 28 [13169482; 84305189232249828275]; StrE false 28 [29531567; 58744969793529917950]; StrE false 28 [63406012; 76128905733167176775]; StrE false 29 [130435226; 25179463222515335080]; StrE false 29 [257247251; 77437274688849688630]; StrE false 29 [486683989; 84340789951877789300]; StrE false 29 [883715665; 76829329123146512150]; StrE false 30 [1540837571; 8317804624973405800]; StrE false 30 [2580902931; 56432322746830454715]; StrE false 30 [4154624231; 29866665885141707590]; StrE false 30 [6429775596; 5746030536528833175]; StrE false 30 [9569898561; 57389440798554542400]; StrE false 31 [13702354758; 61716699325203094800]; StrE false 31 [18878799889; 65031896848057597280]; StrE false 31 [25034930288; 44933602341989422480]; StrE false 31 [31959485474; 61617364691901390400]; StrE false 31 [39283534229; 21571344100462125700]; StrE false 31 [46498877250; 90839550159730679400]; StrE false 31 [53008720066; 3557087182092974516]; StrE false 31 [58205653405; 84297978082298168096]; StrE false 31 [61563671871; 56469015279353831640]; StrE false 31 [62725250586; 12251449529907677520]; StrE false 31 [61563671871; 56469015279353831640]; StrE false 31 [58205653405; 84297978082298168096]; StrE false 31 [53008720066; 3557087182092974516]; StrE false 31 [46498877250; 90839550159730679400]; StrE false 31 [39283534229; 21571344100462125700]; StrE false 31 [31959485474; 61617364691901390400]; StrE false 31 [25034930288; 44933602341989422480]; StrE false 31 [18878799889; 65031896848057597280]; StrE false 31 [13702354758; 61716699325203094800]; StrE false 30 [9569898561; 57389440798554542400]; StrE false 30 [6429775596; 5746030536528833175]; StrE false 30 [4154624231; 29866665885141707590]; StrE false 30 [2580902931; 56432322746830454715]; StrE false 30 [1540837571; 8317804624973405800]; StrE false 29 [883715665; 76829329123146512150]; StrE false 29 [486683989; 84340789951877789300]; StrE false 29 [257247251; 77437274688849688630]; StrE false 29 [130435226; 25179463222515335080]; StrE false 28 [63406012; 76128905733167176775]; StrE false 28 [29531567; 58744969793529917950]; StrE false 28 [13169482; 84305189232249828275]; StrE false 27 [5618979; 34636880739093260064]; StrE false 27 [2291952; 10180832933051198184]; StrE false 26 [892968; 35135389454435531760]; StrE false 26 [332001; 5370849925367056680]; StrE false 26 [117671; 25954225290003513760]; StrE false 25 [39714; 5009551035376185894]; StrE false 25 [12747; 71978374406417047324]; StrE false 24 [3886; 49993406831224709550]; StrE false 24 [1123; 80720985107824012400]; StrE false 23 [307; 70911698303332765300]; StrE false 22 [79; 64235968972627303960]; StrE false 22 [19; 44755294749129923060]; StrE false 21 [4; 47070182700949407600]; StrE false 20 [96526516719523167550]; StrE false 20 [19522216864622663100]; IntE 3687529852206503030; IntE 648356897091253280; IntE 105710363656182600; IntE 15913388077274800; IntE 2200787712814600; IntE 277994237408160; IntE 31853506369685; IntE 3283866636050; IntE 301579589025; IntE 24370067800; IntE 1705904746; IntE 101340876; IntE 4967690; IntE 192920; IntE 5565; IntE 106; IntE 1];
[IntE 1; IntE 107; IntE 5671; IntE 198485; IntE 5160610; IntE 106308566; IntE 1807245622; IntE 26075972546; IntE 325949656825; IntE 3585446225075; IntE 35137373005735; IntE 309847743777845; IntE 2478781950222760; IntE 18114175790089400; IntE 121623751733457400; IntE 754067260747435880; IntE 4335886749297756310; StrE false 20 [23209746716829166130]; StrE false 21 [1; 16048733584145830650]; StrE false 21 [5; 43596699420472575150]; StrE false 22 [23; 91825477450079330660]; StrE false 22 [99; 8991263721757227020]; StrE false 23 [387; 35147667275960069260]; StrE false 24 [1431; 51632683411156777700]; StrE false 24 [5010; 30714391939048721950]; StrE false 25 [16634; 21971781237641756874]; StrE false 25 [52461; 76987925441793233218]; StrE false 26 [157385; 30963776325379699654]; StrE false 26 [449672; 31325075215370570440]; StrE false 27 [1224969; 40506239379802588440]; StrE false 27 [3184920; 45316222387486729944]; StrE false 27 [7910931; 44817713672144458248]; StrE false 28 [18788462; 18942069971343088339]; StrE false 28 [42701050; 43050159025779746225]; StrE false 28 [92937580; 34873875526697094725]; StrE false 29 [193841239; 1308368955682511855]; StrE false 29 [387682478; 2616737911365023710]; StrE false 29 [743931241; 61778064640727477930]; StrE false 30 [1370399655; 61170119075024301450]; StrE false 30 [2424553236; 85147133748119917950]; StrE false 30 [4121740502; 64750127371803860515]; StrE false 30 [6735527162; 86298988631972162305]; StrE false 31 [10584399827; 35612696421670540765]; StrE false 31 [15999674157; 63135471335083375575]; StrE false 31 [23272253320; 19106140123757637200]; StrE false 31 [32581154648; 26748596173260692080]; StrE false 31 [43913730178; 9965499190047019760]; StrE false 31 [56994415763; 6550967033890812880]; StrE false 31 [71243019703; 83188708792363516100]; StrE false 31 [85782411480; 12410894260192805100]; StrE false 31 [99507597316; 94396637341823653916]; StrE false 32 [111214373471; 87855065264391142612]; StrE false 32 [119769325277; 40766993361651999736]; StrE false 32 [124288922457; 68720464809261509160]; StrE false 32 [124288922457; 68720464809261509160]; StrE false 32 [119769325277; 40766993361651999736]; StrE false 32 [111214373471; 87855065264391142612]; StrE false 31 [99507597316; 94396637341823653916]; StrE false 31 [85782411480; 12410894260192805100]; StrE false 31 [71243019703; 83188708792363516100]; StrE false 31 [56994415763; 6550967033890812880]; StrE false 31 [43913730178; 9965499190047019760]; StrE false 31 [32581154648; 26748596173260692080]; StrE false 31 [23272253320; 19106140123757637200]; StrE false 31 [15999674157; 63135471335083375575]; StrE false 31 [10584399827; 35612696421670540765]; StrE false 30 [6735527162; 86298988631972162305]; StrE false 30 [4121740502; 64750127371803860515]; StrE false 30 [2424553236; 85147133748119917950]; StrE false 30 [1370399655; 61170119075024301450]; StrE false 29 [743931241; 61778064640727477930]; StrE false 29 [387682478; 2616737911365023710]; StrE false 29 [193841239; 1308368955682511855]; StrE false 28 [92937580; 34873875526697094725]; StrE false 28 [42701050; 43050159025779746225]; StrE false 28 [18788462; 18942069971343088339]; StrE false 27 [7910931; 44817713672144458248]; StrE false 27 [3184920; 45316222387486729944]; StrE false 27 [1224969; 40506239379802588440]; StrE false 26 [449672; 31325075215370570440]; StrE false 26 [157385; 30963776325379699654]; StrE false 25 [52461; 76987925441793233218]; StrE false 25 [16634; 21971781237641756874]; StrE false 24 [5010; 30714391939048721950]; StrE false 24 [1431; 51632683411156777700]; StrE false 23 [387; 35147667275960069260]; StrE false 22 [99; 8991263721757227020]; StrE false 22 [23; 91825477450079330660]; StrE false 21 [5; 43596699420472575150]; StrE false 21 [1; 16048733584145830650]; StrE false 20 [23209746716829166130]; IntE 4335886749297756310; IntE 754067260747435880; IntE 121623751733457400; IntE 18114175790089400; IntE 2478781950222760; IntE 309847743777845; IntE 35137373005735; IntE 3585446225075; IntE 325949656825; IntE 26075972546; IntE 1807245622; IntE 106308566; IntE 5160610; IntE 198485; IntE 5671; IntE 107; IntE 1];
[IntE 1; IntE 108; IntE 5778; IntE 204156; IntE 5359095; IntE 111469176; IntE 1913554188; IntE 27883218168; IntE 352025629371; IntE 3911395881900; IntE 38722819230810; IntE 344985116783580; IntE 2788629694000605; IntE 20592957740312160; IntE 139737927523546800; IntE 875691012480893280; IntE 5089954010045192190; StrE false 20 [27545633466126922440]; StrE false 21 [1; 39258480300974996780]; StrE false 21 [6; 59645433004618405800]; StrE false 22 [29; 35422176870551905810]; StrE false 23 [123; 816741171836557680]; StrE false 23 [486; 44138930997717296280]; StrE false 24 [1818; 86780350687116846960]; StrE false 24 [6441; 82347075350205499650]; StrE false 25 [21644; 52686173176690478824]; StrE false 25 [69095; 98959706679434990092]; StrE false 26 [209847; 7951701767172932872]; StrE false 26 [607057; 62288851540750270094]; StrE false 27 [1674641; 71831314595173158880]; StrE false 27 [4409889; 85822461767289318384]; StrE false 28 [11095851; 90133936059631188192]; StrE false 28 [26699393; 63759783643487546587]; StrE false 28 [61489512; 61992228997122834564]; StrE false 29 [135638630; 77924034552476840950]; StrE false 29 [286778819; 36182244482379606580]; StrE false 29 [581523717; 3925106867047535565]; StrE false 30 [1131613719; 64394802552092501640]; StrE false 30 [2114330897; 22948183715751779380]; StrE false 30 [3794952892; 46317252823144219400]; StrE false 30 [6546293739; 49897261119923778465]; StrE false 31 [10857267665; 51049116003776022820]; StrE false 31 [17319926990; 21911685053642703070]; StrE false 31 [26584073984; 98748167756753916340]; StrE false 31 [39271927477; 82241611458841012775]; StrE false 31 [55853407968; 45854736297018329280]; StrE false 31 [76494884826; 36714095363307711840]; StrE false 32 [100908145941; 16516466223937832640]; StrE false 32 [128237435466; 89739675826254328980]; StrE false 32 [157025431183; 95599603052556321200]; StrE false 32 [185290008797; 6807531602016459016]; StrE false 32 [210721970788; 82251702606214796528]; StrE false 32 [230983698749; 28622058626043142348]; StrE false 32 [244058247735; 9487458170913508896]; StrE false 32 [248577844915; 37440929618523018320]; StrE false 32 [244058247735; 9487458170913508896]; StrE false 32 [230983698749; 28622058626043142348]; StrE false 32 [210721970788; 82251702606214796528]; StrE false 32 [185290008797; 6807531602016459016]; StrE false 32 [157025431183; 95599603052556321200]; StrE false 32 [128237435466; 89739675826254328980]; StrE false 32 [100908145941; 16516466223937832640]; StrE false 31 [76494884826; 36714095363307711840]; StrE false 31 [55853407968; 45854736297018329280]; StrE false 31 [39271927477; 82241611458841012775]; StrE false 31 [26584073984; 98748167756753916340]; StrE false 31 [17319926990; 21911685053642703070]; StrE false 31 [10857267665; 51049116003776022820]; StrE false 30 [6546293739; 49897261119923778465]; StrE false 30 [3794952892; 46317252823144219400]; StrE false 30 [2114330897; 22948183715751779380]; StrE false 30 [1131613719; 64394802552092501640]; StrE false 29 [581523717; 3925106867047535565]; StrE false 29 [286778819; 36182244482379606580]; StrE false 29 [135638630; 77924034552476840950]; StrE false 28 [61489512; 61992228997122834564]; StrE false 28 [26699393; 63759783643487546587]; StrE false 28 [11095851; 90133936059631188192]; StrE false 27 [4409889; 85822461767289318384]; StrE false 27 [1674641; 71831314595173158880]; StrE false 26 [607057; 62288851540750270094]; StrE false 26 [209847; 7951701767172932872]; StrE false 25 [69095; 98959706679434990092]; StrE false 25 [21644; 52686173176690478824]; StrE false 24 [6441; 82347075350205499650]; StrE false 24 [1818; 86780350687116846960]; StrE false 23 [486; 44138930997717296280]; StrE false 23 [123; 816741171836557680]; StrE false 22 [29; 35422176870551905810]; StrE false 21 [6; 59645433004618405800]; StrE false 21 [1; 39258480300974996780]; StrE false 20 [27545633466126922440]; IntE 5089954010045192190; IntE 875691012480893280; IntE 139737927523546800; IntE 20592957740312160; IntE 2788629694000605; IntE 344985116783580; IntE 38722819230810; IntE 3911395881900; IntE 352025629371; IntE 27883218168; IntE 1913554188; IntE 111469176; IntE 5359095; IntE 204156; IntE 5778; IntE 108; IntE 1];
[IntE 1; IntE 109; IntE 5886; IntE 209934; IntE 5563251; IntE 116828271; IntE 2025023364; IntE 29796772356; IntE 379908847539; IntE 4263421511271; IntE 42634215112710; IntE 383707936014390; IntE 3133614810784185; IntE 23381587434312765; IntE 160330885263858960; IntE 1015428940004440080; IntE 5965645022526085470; StrE false 20 [32635587476172114630]; StrE false 21 [1; 66804113767101919220]; StrE false 21 [7; 98903913305593402580]; StrE false 22 [35; 95067609875170311610]; StrE false 23 [152; 36238918042388463490]; StrE false 23 [609; 44955672169553853960]; StrE false 24 [2305; 30919281684834143240]; StrE false 24 [8260; 69127426037322346610]; StrE false 25 [28086; 35033248526895978474]; StrE false 25 [90740; 51645879856125468916]; StrE false 26 [278943; 6911408446607922964]; StrE false 26 [816904; 70240553307923202966]; StrE false 27 [2281699; 34120166135923428974]; StrE false 27 [6084531; 57653776362462477264]; StrE false 28 [15505741; 75956397826920506576]; StrE false 28 [37795245; 53893719703118734779]; StrE false 28 [88188906; 25752012640610381151]; StrE false 29 [197128143; 39916263549599675514]; StrE false 29 [422417450; 14106279034856447530]; StrE false 29 [868302536; 40107351349427142145]; StrE false 30 [1713137436; 68319909419140037205]; StrE false 30 [3245944616; 87342986267844281020]; StrE false 30 [5909283789; 69265436538895998780]; StrE false 31 [10341246631; 96214513943067997865]; StrE false 31 [17403561405; 946377123699801285]; StrE false 31 [28177194655; 72960801057418725890]; StrE false 31 [43904000975; 20659852810396619410]; StrE false 31 [65856001462; 80989779215594929115]; StrE false 31 [95125335446; 28096347755859342055]; StrE false 32 [132348292794; 82568831660326041120]; StrE false 32 [177403030767; 53230561587245544480]; StrE false 32 [229145581408; 6256142050192161620]; StrE false 32 [285262866650; 85339278878810650180]; StrE false 32 [342315439981; 2407134654572780216]; StrE false 32 [396011979585; 89059234208231255544]; StrE false 32 [441705669538; 10873761232257938876]; StrE false 32 [475041946484; 38109516796956651244]; StrE false 32 [492636092650; 46928387789436527216]; StrE false 32 [492636092650; 46928387789436527216]; StrE false 32 [475041946484; 38109516796956651244]; StrE false 32 [441705669538; 10873761232257938876]; StrE false 32 [396011979585; 89059234208231255544]; StrE false 32 [342315439981; 2407134654572780216]; StrE false 32 [285262866650; 85339278878810650180]; StrE false 32 [229145581408; 6256142050192161620]; StrE false 32 [177403030767; 53230561587245544480]; StrE false 32 [132348292794; 82568831660326041120]; StrE false 31 [95125335446; 28096347755859342055]; StrE false 31 [65856001462; 80989779215594929115]; StrE false 31 [43904000975; 20659852810396619410]; StrE false 31 [28177194655; 72960801057418725890]; StrE false 31 [17403561405; 946377123699801285]; StrE false 31 [10341246631; 96214513943067997865]; StrE false 30 [5909283789; 69265436538895998780]; StrE false 30 [3245944616; 87342986267844281020]; StrE false 30 [1713137436; 68319909419140037205]; StrE false 29 [868302536; 40107351349427142145]; StrE false 29 [422417450; 14106279034856447530]; StrE false 29 [197128143; 39916263549599675514]; StrE false 28 [88188906; 25752012640610381151]; StrE false 28 [37795245; 53893719703118734779]; StrE false 28 [15505741; 75956397826920506576]; StrE false 27 [6084531; 57653776362462477264]; StrE false 27 [2281699; 34120166135923428974]; StrE false 26 [816904; 70240553307923202966]; StrE false 26 [278943; 6911408446607922964]; StrE false 25 [90740; 51645879856125468916]; StrE false 25 [28086; 35033248526895978474]; StrE false 24 [8260; 69127426037322346610]; StrE false 24 [2305; 30919281684834143240]; StrE false 23 [609; 44955672169553853960]; StrE false 23 [152; 36238918042388463490]; StrE false 22 [35; 95067609875170311610]; StrE false 21 [7; 98903913305593402580]; StrE false 21 [1; 66804113767101919220]; StrE false 20 [32635587476172114630]; IntE 5965645022526085470; IntE 1015428940004440080; IntE 160330885263858960; IntE 23381587434312765; IntE 3133614810784185; IntE 383707936014390; IntE 42634215112710; IntE 4263421511271; IntE 379908847539; IntE 29796772356; IntE 2025023364; IntE 116828271; IntE 5563251; IntE 209934; IntE 5886; IntE 109; IntE 1];
[IntE 1; IntE 110; IntE 5995; IntE 215820; IntE 5773185; IntE 122391522; IntE 2141851635; IntE 31821795720; IntE 409705619895; IntE 4643330358810; IntE 46897636623981; IntE 426342151127100; IntE 3517322746798575; IntE 26515202245096950; IntE 183712472698171725; IntE 1175759825268299040; IntE 6981073962530525550; StrE false 20 [38601232498698200100]; StrE false 21 [1; 99439701243274033850]; StrE false 21 [9; 65708027072695321800]; StrE false 22 [43; 93971523180763714190]; StrE false 23 [188; 31306527917558775100]; StrE false 23 [761; 81194590211942317450]; StrE false 24 [2914; 75874953854387997200]; StrE false 25 [10566; 46707722156489850]; StrE false 25 [36347; 4160674564218325084]; StrE false 26 [118826; 86679128383021447390]; StrE false 26 [369683; 58557288302733391880]; StrE false 27 [1095847; 77151961754531125930]; StrE false 27 [3098604; 4360719443846631940]; StrE false 27 [8366230; 91773942498385906238]; StrE false 28 [21590273; 33610174189382983840]; StrE false 28 [53300987; 29850117530039241355]; StrE false 29 [125984151; 79645732343729115930]; StrE false 29 [285317049; 65668276190210056665]; StrE false 29 [619545593; 54022542584456123044]; StrE false 30 [1290719986; 54213630384283589675]; StrE false 30 [2581439973; 8427260768567179350]; StrE false 30 [4959082053; 55662895686984318225]; StrE false 30 [9155228406; 56608422806740279800]; StrE false 31 [16250530421; 65479950481963996645]; StrE false 31 [27744808036; 97160891066767799150]; StrE false 31 [45580756060; 73907178181118527175]; StrE false 31 [72081195630; 93620653867815345300]; StrE false 32 [109760002438; 1649632025991548525]; StrE false 32 [160981336909; 9086126971454271170]; StrE false 32 [227473628241; 10665179416185383175]; StrE false 32 [309751323562; 35799393247571585600]; StrE false 32 [406548612175; 59486703637437706100]; StrE false 32 [514408448058; 91595420929002811800]; StrE false 32 [627578306631; 87746413533383430396]; StrE false 32 [738327419566; 91466368862804035760]; StrE false 32 [837717649123; 99932995440489194420]; StrE false 32 [916747616022; 48983278029214590120]; StrE false 32 [967678039134; 85037904586393178460]; StrE false 32 [985272185300; 93856775578873054432]; StrE false 32 [967678039134; 85037904586393178460]; StrE false 32 [916747616022; 48983278029214590120]; StrE false 32 [837717649123; 99932995440489194420]; StrE false 32 [738327419566; 91466368862804035760]; StrE false 32 [627578306631; 87746413533383430396]; StrE false 32 [514408448058; 91595420929002811800]; StrE false 32 [406548612175; 59486703637437706100]; StrE false 32 [309751323562; 35799393247571585600]; StrE false 32 [227473628241; 10665179416185383175]; StrE false 32 [160981336909; 9086126971454271170]; StrE false 32 [109760002438; 1649632025991548525]; StrE false 31 [72081195630; 93620653867815345300]; StrE false 31 [45580756060; 73907178181118527175]; StrE false 31 [27744808036; 97160891066767799150]; StrE false 31 [16250530421; 65479950481963996645]; StrE false 30 [9155228406; 56608422806740279800]; StrE false 30 [4959082053; 55662895686984318225]; StrE false 30 [2581439973; 8427260768567179350]; StrE false 30 [1290719986; 54213630384283589675]; StrE false 29 [619545593; 54022542584456123044]; StrE false 29 [285317049; 65668276190210056665]; StrE false 29 [125984151; 79645732343729115930]; StrE false 28 [53300987; 29850117530039241355]; StrE false 28 [21590273; 33610174189382983840]; StrE false 27 [8366230; 91773942498385906238]; StrE false 27 [3098604; 4360719443846631940]; StrE false 27 [1095847; 77151961754531125930]; StrE false 26 [369683; 58557288302733391880]; StrE false 26 [118826; 86679128383021447390]; StrE false 25 [36347; 4160674564218325084]; StrE false 25 [10566; 46707722156489850]; StrE false 24 [2914; 75874953854387997200]; StrE false 23 [761; 81194590211942317450]; StrE false 23 [188; 31306527917558775100]; StrE false 22 [43; 93971523180763714190]; StrE false 21 [9; 65708027072695321800]; StrE false 21 [1; 99439701243274033850]; StrE false 20 [38601232498698200100]; IntE 6981073962530525550; IntE 1175759825268299040; IntE 183712472698171725; IntE 26515202245096950; IntE 3517322746798575; IntE 426342151127100; IntE 46897636623981; IntE 4643330358810; IntE 409705619895; IntE 31821795720; IntE 2141851635; IntE 122391522; IntE 5773185; IntE 215820; IntE 5995; IntE 110; IntE 1];
[IntE 1; IntE 111; IntE 6105; IntE 221815; IntE 5989005; IntE 128164707; IntE 2264243157; IntE 33963647355; IntE 441527415615; IntE 5053035978705; IntE 51540966982791; IntE 473239787751081; IntE 3943664897925675; IntE 30032524991895525; IntE 210227674943268675; IntE 1359472297966470765; IntE 8156833787798824590; StrE false 20 [45582306461228725650]; StrE false 21 [2; 38040933741972233950]; StrE false 22 [11; 65147728315969355650]; StrE false 22 [53; 59679550253459035990]; StrE false 23 [232; 25278051098322489290]; StrE false 23 [950; 12501118129501092550]; StrE false 24 [3676; 57069544066330314650]; StrE false 25 [13480; 75921661576544487050]; StrE false 25 [46913; 4207382286374814934]; StrE false 26 [155173; 90839802947239772474]; StrE false 26 [488510; 45236416685754839270]; StrE false 27 [1465531; 35709250057264517810]; StrE false 27 [4194451; 81512681198377757870]; StrE false 28 [11464834; 96134661942232538178]; StrE false 28 [29956504; 25384116687768890078]; StrE false 28 [74891260; 63460291719422225195]; StrE false 29 [179285139; 9495849873768357285]; StrE false 29 [411301201; 45314008533939172595]; StrE false 29 [904862643; 19690818774666179709]; StrE false 30 [1910265580; 8236172968739712719]; StrE false 30 [3872159959; 62640891152850769025]; StrE false 30 [7540522026; 64090156455551497575]; StrE false 31 [14114310460; 12271318493724598025]; StrE false 31 [25405758828; 22088373288704276445]; StrE false 31 [43995338458; 62640841548731795795]; StrE false 31 [73325564097; 71068069247886326325]; StrE false 32 [117661951691; 67527832048933872475]; StrE false 32 [181841198068; 95270285893806893825]; StrE false 32 [270741339347; 10735758997445819695]; StrE false 32 [388454965150; 19751306387639654345]; StrE false 32 [537224951803; 46464572663756968775]; StrE false 32 [716299935737; 95286096885009291700]; StrE false 32 [920957060234; 51082124566440517900]; StrE false 33 [1141986754690; 79341834462386242196]; StrE false 33 [1365905726198; 79212782396187466156]; StrE false 33 [1576045068690; 91399364303293230180]; StrE false 33 [1754465265146; 48916273469703784540]; StrE false 33 [1884425655157; 34021182615607768580]; StrE false 33 [1952950224435; 78894680165266232892]; StrE false 33 [1952950224435; 78894680165266232892]; StrE false 33 [1884425655157; 34021182615607768580]; StrE false 33 [1754465265146; 48916273469703784540]; StrE false 33 [1576045068690; 91399364303293230180]; StrE false 33 [1365905726198; 79212782396187466156]; StrE false 33 [1141986754690; 79341834462386242196]; StrE false 32 [920957060234; 51082124566440517900]; StrE false 32 [716299935737; 95286096885009291700]; StrE false 32 [537224951803; 46464572663756968775]; StrE false 32 [388454965150; 19751306387639654345]; StrE false 32 [270741339347; 10735758997445819695]; StrE false 32 [181841198068; 95270285893806893825]; StrE false 32 [117661951691; 67527832048933872475]; StrE false 31 [73325564097; 71068069247886326325]; StrE false 31 [43995338458; 62640841548731795795]; StrE false 31 [25405758828; 22088373288704276445]; StrE false 31 [14114310460; 12271318493724598025]; StrE false 30 [7540522026; 64090156455551497575]; StrE false 30 [3872159959; 62640891152850769025]; StrE false 30 [1910265580; 8236172968739712719]; StrE false 29 [904862643; 19690818774666179709]; StrE false 29 [411301201; 45314008533939172595]; StrE false 29 [179285139; 9495849873768357285]; StrE false 28 [74891260; 63460291719422225195]; StrE false 28 [29956504; 25384116687768890078]; StrE false 28 [11464834; 96134661942232538178]; StrE false 27 [4194451; 81512681198377757870]; StrE false 27 [1465531; 35709250057264517810]; StrE false 26 [488510; 45236416685754839270]; StrE false 26 [155173; 90839802947239772474]; StrE false 25 [46913; 4207382286374814934]; StrE false 25 [13480; 75921661576544487050]; StrE false 24 [3676; 57069544066330314650]; StrE false 23 [950; 12501118129501092550]; StrE false 23 [232; 25278051098322489290]; StrE false 22 [53; 59679550253459035990]; StrE false 22 [11; 65147728315969355650]; StrE false 21 [2; 38040933741972233950]; StrE false 20 [45582306461228725650]; IntE 8156833787798824590; IntE 1359472297966470765; IntE 210227674943268675; IntE 30032524991895525; IntE 3943664897925675; IntE 473239787751081; IntE 51540966982791; IntE 5053035978705; IntE 441527415615; IntE 33963647355; IntE 2264243157; IntE 128164707; IntE 5989005; IntE 221815; IntE 6105; IntE 111; IntE 1];
[IntE 1; IntE 112; IntE 6216; IntE 227920; IntE 6210820; IntE 134153712; IntE 2392407864; IntE 36227890512; IntE 475491062970; IntE 5494563394320; IntE 56594002961496; IntE 524780754733872; IntE 4416904685676756; IntE 33976189889821200; IntE 240260199935164200; IntE 1569699972909739440; StrE false 19 [9516306085765295355]; StrE false 20 [53739140249027550240]; StrE false 21 [2; 83623240203200959600]; StrE false 22 [14; 3188662057941589600]; StrE false 22 [65; 24827278569428391640]; StrE false 23 [285; 84957601351781525280]; StrE false 24 [1182; 37779169227823581840]; StrE false 24 [4626; 69570662195831407200]; StrE false 25 [17157; 32991205642874801700]; StrE false 25 [60393; 80129043862919301984]; StrE false 26 [202086; 95047185233614587408]; StrE false 26 [643684; 36076219632994611744]; StrE false 27 [1954041; 80945666743019357080]; StrE false 27 [5659983; 17221931255642275680]; StrE false 28 [15659286; 77647343140610296048]; StrE false 28 [41421339; 21518778630001428256]; StrE false 29 [104847764; 88844408407191115273]; StrE false 29 [254176399; 72956141593190582480]; StrE false 29 [590586340; 54809858407707529880]; StrE false 30 [1316163844; 65004827308605352304]; StrE false 30 [2815128223; 27926991743405892428]; StrE false 30 [5782425539; 70877064121590481744]; StrE false 31 [11412681986; 26731047608402266600]; StrE false 31 [21654832486; 76361474949276095600]; StrE false 31 [39520069288; 34359691782428874470]; StrE false 31 [69401097286; 84729214837436072240]; StrE false 32 [117320902556; 33708910796618122120]; StrE false 32 [190987515789; 38595901296820198800]; StrE false 32 [299503149760; 62798117942740766300]; StrE false 32 [452582537416; 6006044891252713520]; StrE false 32 [659196304497; 30487065385085474040]; StrE false 32 [925679916953; 66215879051396623120]; StrE false 33 [1253524887541; 41750669548766260475]; StrE false 33 [1637256995972; 46368221451449809600]; StrE false 33 [2062943814925; 30423959028826760096]; StrE false 33 [2507892480889; 58554616858573708352]; StrE false 33 [2941950794889; 70612146699480696336]; StrE false 33 [3330510333837; 40315637772997014720]; StrE false 33 [3638890920303; 82937456085311553120]; StrE false 33 [3837375879593; 12915862780874001472]; StrE false 33 [3905900448871; 57789360330532465784]; StrE false 33 [3837375879593; 12915862780874001472]; StrE false 33 [3638890920303; 82937456085311553120]; StrE false 33 [3330510333837; 40315637772997014720]; StrE false 33 [2941950794889; 70612146699480696336]; StrE false 33 [2507892480889; 58554616858573708352]; StrE false 33 [2062943814925; 30423959028826760096]; StrE false 33 [1637256995972; 46368221451449809600]; StrE false 33 [1253524887541; 41750669548766260475]; StrE false 32 [925679916953; 66215879051396623120]; StrE false 32 [659196304497; 30487065385085474040]; StrE false 32 [452582537416; 6006044891252713520]; StrE false 32 [299503149760; 62798117942740766300]; StrE false 32 [190987515789; 38595901296820198800]; StrE false 32 [117320902556; 33708910796618122120]; StrE false 31 [69401097286; 84729214837436072240]; StrE false 31 [39520069288; 34359691782428874470]; StrE false 31 [21654832486; 76361474949276095600]; StrE false 31 [11412681986; 26731047608402266600]; StrE false 30 [5782425539; 70877064121590481744]; StrE false 30 [2815128223; 27926991743405892428]; StrE false 30 [1316163844; 65004827308605352304]; StrE false 29 [590586340; 54809858407707529880]; StrE false 29 [254176399; 72956141593190582480]; StrE false 29 [104847764; 88844408407191115273]; StrE false 28 [41421339; 21518778630001428256]; StrE false 28 [15659286; 77647343140610296048]; StrE false 27 [5659983; 17221931255642275680]; StrE false 27 [1954041; 80945666743019357080]; StrE false 26 [643684; 36076219632994611744]; StrE false 26 [202086; 95047185233614587408]; StrE false 25 [60393; 80129043862919301984]; StrE false 25 [17157; 32991205642874801700]; StrE false 24 [4626; 69570662195831407200]; StrE false 24 [1182; 37779169227823581840]; StrE false 23 [285; 84957601351781525280]; StrE false 22 [65; 24827278569428391640]; StrE false 22 [14; 3188662057941589600]; StrE false 21 [2; 83623240203200959600]; StrE false 20 [53739140249027550240]; StrE false 19 [9516306085765295355]; IntE 1569699972909739440; IntE 240260199935164200; IntE 33976189889821200; IntE 4416904685676756; IntE 524780754733872; IntE 56594002961496; IntE 5494563394320; IntE 475491062970; IntE 36227890512; IntE 2392407864; IntE 134153712; IntE 6210820; IntE 227920; IntE 6216; IntE 112; IntE 1];
[IntE 1; IntE 113; IntE 6328; IntE 234136; IntE 6438740; IntE 140364532; IntE 2526561576; IntE 38620298376; IntE 511718953482; IntE 5970054457290; IntE 62088566355816; IntE 581374757695368; IntE 4941685440410628; IntE 38393094575497956; IntE 274236389824985400; IntE 1809960172844903640; StrE false 20 [11086006058675034795]; StrE false 20 [63255446334792845595]; StrE false 21 [3; 37362380452228509840]; StrE false 22 [16; 86811902261142549200]; StrE false 22 [79; 28015940627369981240]; StrE false 23 [351; 9784879921209916920]; StrE false 24 [1468; 22736770579605107120]; StrE false 24 [5809; 7349831423654989040]; StrE false 25 [21784; 2561867838706208900]; StrE false 25 [77551; 13120249505794103684]; StrE false 26 [262480; 75176229096533889392]; StrE false 26 [845771; 31123404866609199152]; StrE false 27 [2597726; 17021886376013968824]; StrE false 27 [7614024; 98167597998661632760]; StrE false 28 [21319269; 94869274396252571728]; StrE false 28 [57080625; 99166121770611724304]; StrE false 29 [146269104; 10363187037192543529]; StrE false 29 [359024164; 61800550000381697753]; StrE false 29 [844762740; 27766000000898112360]; StrE false 30 [1906750185; 19814685716312882184]; StrE false 30 [4131292067; 92931819052011244732]; StrE false 30 [8597553762; 98804055864996374172]; StrE false 31 [17195107525; 97608111729992748344]; StrE false 31 [33067514473; 3092522557678362200]; StrE false 31 [61174901775; 10721166731704970070]; StrE false 32 [108921166575; 19088906619864946710]; StrE false 32 [186721999843; 18438125634054194360]; StrE false 32 [308308418345; 72304812093438320920]; StrE false 32 [490490665550; 1394019239560965100]; StrE false 32 [752085687176; 68804162833993479820]; StrE false 33 [1111778841913; 36493110276338187560]; StrE false 33 [1584876221450; 96702944436482097160]; StrE false 33 [2179204804495; 7966548600162883595]; StrE false 33 [2890781883513; 88118891000216070075]; StrE false 33 [3700200810897; 76792180480276569696]; StrE false 33 [4570836295814; 88978575887400468448]; StrE false 33 [5449843275779; 29166763558054404688]; StrE false 33 [6272461128727; 10927784472477711056]; StrE false 33 [6969401254141; 23253093858308567840]; StrE false 33 [7476266799896; 95853318866185554592]; StrE false 33 [7743276328464; 70705223111406467256]; StrE false 33 [7743276328464; 70705223111406467256]; StrE false 33 [7476266799896; 95853318866185554592]; StrE false 33 [6969401254141; 23253093858308567840]; StrE false 33 [6272461128727; 10927784472477711056]; StrE false 33 [5449843275779; 29166763558054404688]; StrE false 33 [4570836295814; 88978575887400468448]; StrE false 33 [3700200810897; 76792180480276569696]; StrE false 33 [2890781883513; 88118891000216070075]; StrE false 33 [2179204804495; 7966548600162883595]; StrE false 33 [1584876221450; 96702944436482097160]; StrE false 33 [1111778841913; 36493110276338187560]; StrE false 32 [752085687176; 68804162833993479820]; StrE false 32 [490490665550; 1394019239560965100]; StrE false 32 [308308418345; 72304812093438320920]; StrE false 32 [186721999843; 18438125634054194360]; StrE false 32 [108921166575; 19088906619864946710]; StrE false 31 [61174901775; 10721166731704970070]; StrE false 31 [33067514473; 3092522557678362200]; StrE false 31 [17195107525; 97608111729992748344]; StrE false 30 [8597553762; 98804055864996374172]; StrE false 30 [4131292067; 92931819052011244732]; StrE false 30 [1906750185; 19814685716312882184]; StrE false 29 [844762740; 27766000000898112360]; StrE false 29 [359024164; 61800550000381697753]; StrE false 29 [146269104; 10363187037192543529]; StrE false 28 [57080625; 99166121770611724304]; StrE false 28 [21319269; 94869274396252571728]; StrE false 27 [7614024; 98167597998661632760]; StrE false 27 [2597726; 17021886376013968824]; StrE false 26 [845771; 31123404866609199152]; StrE false 26 [262480; 75176229096533889392]; StrE false 25 [77551; 13120249505794103684]; StrE false 25 [21784; 2561867838706208900]; StrE false 24 [5809; 7349831423654989040]; StrE false 24 [1468; 22736770579605107120]; StrE false 23 [351; 9784879921209916920]; StrE false 22 [79; 28015940627369981240]; StrE false 22 [16; 86811902261142549200]; StrE false 21 [3; 37362380452228509840]; StrE false 20 [63255446334792845595]; StrE false 20 [11086006058675034795]; IntE 1809960172844903640; IntE 274236389824985400; IntE 38393094575497956; IntE 4941685440410628; IntE 581374757695368; IntE 62088566355816; IntE 5970054457290; IntE 511718953482; IntE 38620298376; IntE 2526561576; IntE 140364532; IntE 6438740; IntE 234136; IntE 6328; IntE 113; IntE 1];
[IntE 1; IntE 114; IntE 6441; IntE 240464; IntE 6672876; IntE 146803272; IntE 2666926108; IntE 41146859952; IntE 550339251858; IntE 6481773410772; IntE 68058620813106; IntE 643463324051184; IntE 5523060198105996; IntE 43334780015908584; IntE 312629484400483356; IntE 2084196562669889040; StrE false 20 [12895966231519938435]; StrE false 20 [74341452393467880390]; StrE false 21 [4; 617826787021355435]; StrE false 22 [20; 24174282713371059040]; StrE false 22 [96; 14827842888512530440]; StrE false 23 [430; 37800820548579898160]; StrE false 24 [1819; 32521650500815024040]; StrE false 24 [7277; 30086602003260096160]; StrE false 25 [27593; 9911699262361197940]; StrE false 25 [99335; 15682117344500312584]; StrE false 26 [340031; 88296478602327993076]; StrE false 27 [1108252; 6299633963143088544]; StrE false 27 [3443497; 48145291242623167976]; StrE false 28 [10211751; 15189484374675601584]; StrE false 28 [28933294; 93036872394914204488]; StrE false 28 [78399895; 94035396166864296032]; StrE false 29 [203349730; 9529308807804267833]; StrE false 29 [505293268; 72163737037574241282]; StrE false 30 [1203786904; 89566550001279810113]; StrE false 30 [2751512925; 47580685717210994544]; StrE false 30 [6038042253; 12746504768324126916]; StrE false 31 [12728845830; 91735874917007618904]; StrE false 31 [25792661288; 96412167594989122516]; StrE false 31 [50262621999; 700634287671110544]; StrE false 31 [94242416248; 13813689289383332270]; StrE false 32 [170096068350; 29810073351569916780]; StrE false 32 [295643166418; 37527032253919141070]; StrE false 32 [495030418188; 90742937727492515280]; StrE false 32 [798799083895; 73698831332999286020]; StrE false 33 [1242576352726; 70198182073554444920]; StrE false 33 [1863864529090; 5297273110331667380]; StrE false 33 [2696655063364; 33196054712820284720]; StrE false 33 [3764081025946; 4669493036644980755]; StrE false 33 [5069986688008; 96085439600378953670]; StrE false 33 [6590982694411; 64911071480492639771]; StrE false 33 [8271037106712; 65770756367677038144]; StrE false 34 [10020679571594; 18145339445454873136]; StrE false 34 [11722304404506; 40094548030532115744]; StrE false 34 [13241862382868; 34180878330786278896]; StrE false 34 [14445668054038; 19106412724494122432]; StrE false 34 [15219543128361; 66558541977592021848]; StrE false 34 [15486552656929; 41410446222812934512]; StrE false 34 [15219543128361; 66558541977592021848]; StrE false 34 [14445668054038; 19106412724494122432]; StrE false 34 [13241862382868; 34180878330786278896]; StrE false 34 [11722304404506; 40094548030532115744]; StrE false 34 [10020679571594; 18145339445454873136]; StrE false 33 [8271037106712; 65770756367677038144]; StrE false 33 [6590982694411; 64911071480492639771]; StrE false 33 [5069986688008; 96085439600378953670]; StrE false 33 [3764081025946; 4669493036644980755]; StrE false 33 [2696655063364; 33196054712820284720]; StrE false 33 [1863864529090; 5297273110331667380]; StrE false 33 [1242576352726; 70198182073554444920]; StrE false 32 [798799083895; 73698831332999286020]; StrE false 32 [495030418188; 90742937727492515280]; StrE false 32 [295643166418; 37527032253919141070]; StrE false 32 [170096068350; 29810073351569916780]; StrE false 31 [94242416248; 13813689289383332270]; StrE false 31 [50262621999; 700634287671110544]; StrE false 31 [25792661288; 96412167594989122516]; StrE false 31 [12728845830; 91735874917007618904]; StrE false 30 [6038042253; 12746504768324126916]; StrE false 30 [2751512925; 47580685717210994544]; StrE false 30 [1203786904; 89566550001279810113]; StrE false 29 [505293268; 72163737037574241282]; StrE false 29 [203349730; 9529308807804267833]; StrE false 28 [78399895; 94035396166864296032]; StrE false 28 [28933294; 93036872394914204488]; StrE false 28 [10211751; 15189484374675601584]; StrE false 27 [3443497; 48145291242623167976]; StrE false 27 [1108252; 6299633963143088544]; StrE false 26 [340031; 88296478602327993076]; StrE false 25 [99335; 15682117344500312584]; StrE false 25 [27593; 9911699262361197940]; StrE false 24 [7277; 30086602003260096160]; StrE false 24 [1819; 32521650500815024040]; StrE false 23 [430; 37800820548579898160]; StrE false 22 [96; 14827842888512530440]; StrE false 22 [20; 24174282713371059040]; StrE false 21 [4; 617826787021355435]; StrE false 20 [74341452393467880390]; StrE false 20 [12895966231519938435]; IntE 2084196562669889040; IntE 312629484400483356; IntE 43334780015908584; IntE 5523060198105996; IntE 643463324051184; IntE 68058620813106; IntE 6481773410772; IntE 550339251858; IntE 41146859952; IntE 2666926108; IntE 146803272; IntE 6672876; IntE 240464; IntE 6441; IntE 114; IntE 1];
[IntE 1; IntE 115; IntE 6555; IntE 246905; IntE 6913340; IntE 153476148; IntE 2813729380; IntE 43813786060; IntE 591486111810; IntE 7032112662630; IntE 74540394223878; IntE 711521944864290; IntE 6166523522157180; IntE 48857840214014580; IntE 355964264416391940; IntE 2396826047070372396; StrE false 20 [14980162794189827475]; StrE false 20 [87237418624987818825]; StrE false 21 [4; 74959279180489235825]; StrE false 22 [24; 24792109500392414475]; StrE false 23 [116; 39002125601883589480]; StrE false 23 [526; 52628663437092428600]; StrE false 24 [2249; 70322471049394922200]; StrE false 24 [9096; 62608252504075120200]; StrE false 25 [34870; 39998301265621294100]; StrE false 26 [126928; 25593816606861510524]; StrE false 26 [439367; 3978595946828305660]; StrE false 27 [1448283; 94596112565471081620]; StrE false 27 [4551749; 54444925205766256520]; StrE false 28 [13655248; 63334775617298769560]; StrE false 28 [39145046; 8226356769589806072]; StrE false 29 [107333190; 87072268561778500520]; StrE false 29 [281749626; 3564704974668563865]; StrE false 29 [708642998; 81693045845378509115]; StrE false 30 [1709080173; 61730287038854051395]; StrE false 30 [3955299830; 37147235718490804657]; StrE false 30 [8789555178; 60327190485535121460]; StrE false 31 [18766888084; 4482379685331745820]; StrE false 31 [38521507119; 88148042511996741420]; StrE false 31 [76055283287; 97112801882660233060]; StrE false 32 [144505038247; 14514323577054442814]; StrE false 32 [264338484598; 43623762640953249050]; StrE false 32 [465739234768; 67337105605489057850]; StrE false 32 [790673584607; 28269969981411656350]; StrE false 33 [1293829502084; 64441769060491801300]; StrE false 33 [2041375436622; 43897013406553730940]; StrE false 33 [3106440881816; 75495455183886112300]; StrE false 33 [4560519592454; 38493327823151952100]; StrE false 33 [6460736089310; 37865547749465265475]; StrE false 33 [8834067713955; 754932637023934425]; StrE false 34 [11660969382420; 60996511080871593441]; StrE false 34 [14862019801124; 30681827848169677915]; StrE false 34 [18291716678306; 83916095813131911280]; StrE false 34 [21742983976100; 58239887475986988880]; StrE false 34 [24964166787374; 74275426361318394640]; StrE false 34 [27687530436906; 53287291055280401328]; StrE false 34 [29665211182399; 85664954702086144280]; StrE false 34 [30706095785291; 7968988200404956360]; StrE false 34 [30706095785291; 7968988200404956360]; StrE false 34 [29665211182399; 85664954702086144280]; StrE false 34 [27687530436906; 53287291055280401328]; StrE false 34 [24964166787374; 74275426361318394640]; StrE false 34 [21742983976100; 58239887475986988880]; StrE false 34 [18291716678306; 83916095813131911280]; StrE false 34 [14862019801124; 30681827848169677915]; StrE false 34 [11660969382420; 60996511080871593441]; StrE false 33 [8834067713955; 754932637023934425]; StrE false 33 [6460736089310; 37865547749465265475]; StrE false 33 [4560519592454; 38493327823151952100]; StrE false 33 [3106440881816; 75495455183886112300]; StrE false 33 [2041375436622; 43897013406553730940]; StrE false 33 [1293829502084; 64441769060491801300]; StrE false 32 [790673584607; 28269969981411656350]; StrE false 32 [465739234768; 67337105605489057850]; StrE false 32 [264338484598; 43623762640953249050]; StrE false 32 [144505038247; 14514323577054442814]; StrE false 31 [76055283287; 97112801882660233060]; StrE false 31 [38521507119; 88148042511996741420]; StrE false 31 [18766888084; 4482379685331745820]; StrE false 30 [8789555178; 60327190485535121460]; StrE false 30 [3955299830; 37147235718490804657]; StrE false 30 [1709080173; 61730287038854051395]; StrE false 29 [708642998; 81693045845378509115]; StrE false 29 [281749626; 3564704974668563865]; StrE false 29 [107333190; 87072268561778500520]; StrE false 28 [39145046; 8226356769589806072]; StrE false 28 [13655248; 63334775617298769560]; StrE false 27 [4551749; 54444925205766256520]; StrE false 27 [1448283; 94596112565471081620]; StrE false 26 [439367; 3978595946828305660]; StrE false 26 [126928; 25593816606861510524]; StrE false 25 [34870; 39998301265621294100]; StrE false 24 [9096; 62608252504075120200]; StrE false 24 [2249; 70322471049394922200]; StrE false 23 [526; 52628663437092428600]; StrE false 23 [116; 39002125601883589480]; StrE false 22 [24; 24792109500392414475]; StrE false 21 [4; 74959279180489235825]; StrE false 20 [87237418624987818825]; StrE false 20 [14980162794189827475]; IntE 2396826047070372396; IntE 355964264416391940; IntE 48857840214014580; IntE 6166523522157180; IntE 711521944864290; IntE 74540394223878; IntE 7032112662630; IntE 591486111810; IntE 43813786060; IntE 2813729380; IntE 153476148; IntE 6913340; IntE 246905; IntE 6555; IntE 115; IntE 1];
[IntE 1; IntE 116; IntE 6670; IntE 253460; IntE 7160245; IntE 160389488; IntE 2967205528; IntE 46627515440; IntE 635299897870; IntE 7623598774440; IntE 81572506886508; IntE 786062339088168; IntE 6878045467021470; IntE 55024363736171760; IntE 404822104630406520; IntE 2752790311486764336; StrE false 20 [17376988841260199871]; StrE false 21 [1; 2217581419177646300]; StrE false 21 [5; 62196697805477054650]; StrE false 22 [28; 99751388680881650300]; StrE false 23 [140; 63794235102276003955]; StrE false 23 [642; 91630789038976018080]; StrE false 24 [2776; 22951134486487350800]; StrE false 25 [11346; 32930723553470042400]; StrE false 25 [43967; 2606553769696414300]; StrE false 26 [161798; 65592117872482804624]; StrE false 26 [566295; 29572412553689816184]; StrE false 27 [1887650; 98574708512299387280]; StrE false 27 [6000033; 49041037771237338140]; StrE false 28 [18206998; 17779700823065026080]; StrE false 28 [52800294; 71561132386888575632]; StrE false 29 [146478236; 95298625331368306592]; StrE false 29 [389082816; 90636973536447064385]; StrE false 29 [990392624; 85257750820047072980]; StrE false 30 [2417723172; 43423332884232560510]; StrE false 30 [5664380003; 98877522757344856052]; StrE false 31 [12744855008; 97474426204025926117]; StrE false 31 [27556443262; 64809570170866867280]; StrE false 31 [57288395203; 92630422197328487240]; StrE false 32 [114576790407; 85260844394656974480]; StrE false 32 [220560321535; 11627125459714675874]; StrE false 32 [408843522845; 58138086218007691864]; StrE false 32 [730077719367; 10960868246442306900]; StrE false 33 [1256412819375; 95607075586900714200]; StrE false 33 [2084503086691; 92711739041903457650]; StrE false 33 [3335204938707; 8338782467045532240]; StrE false 33 [5147816318439; 19392468590439843240]; StrE false 33 [7666960474271; 13988783007038064400]; StrE false 34 [11021255681764; 76358875572617217575]; StrE false 34 [15294803803265; 38620480386489199900]; StrE false 34 [20495037096375; 61751443717895527866]; StrE false 34 [26522989183544; 91678338929041271356]; StrE false 34 [33153736479431; 14597923661301589195]; StrE false 34 [40034700654407; 42155983289118900160]; StrE false 34 [46707150763475; 32515313837305383520]; StrE false 34 [52651697224281; 27562717416598795968]; StrE false 34 [57352741619306; 38952245757366545608]; StrE false 34 [60371306967690; 93633942902491100640]; StrE false 34 [61412191570582; 15937976400809912720]; StrE false 34 [60371306967690; 93633942902491100640]; StrE false 34 [57352741619306; 38952245757366545608]; StrE false 34 [52651697224281; 27562717416598795968]; StrE false 34 [46707150763475; 32515313837305383520]; StrE false 34 [40034700654407; 42155983289118900160]; StrE false 34 [33153736479431; 14597923661301589195]; StrE false 34 [26522989183544; 91678338929041271356]; StrE false 34 [20495037096375; 61751443717895527866]; StrE false 34 [15294803803265; 38620480386489199900]; StrE false 34 [11021255681764; 76358875572617217575]; StrE false 33 [7666960474271; 13988783007038064400]; StrE false 33 [5147816318439; 19392468590439843240]; StrE false 33 [3335204938707; 8338782467045532240]; StrE false 33 [2084503086691; 92711739041903457650]; StrE false 33 [1256412819375; 95607075586900714200]; StrE false 32 [730077719367; 10960868246442306900]; StrE false 32 [408843522845; 58138086218007691864]; StrE false 32 [220560321535; 11627125459714675874]; StrE false 32 [114576790407; 85260844394656974480]; StrE false 31 [57288395203; 92630422197328487240]; StrE false 31 [27556443262; 64809570170866867280]; StrE false 31 [12744855008; 97474426204025926117]; StrE false 30 [5664380003; 98877522757344856052]; StrE false 30 [2417723172; 43423332884232560510]; StrE false 29 [990392624; 85257750820047072980]; StrE false 29 [389082816; 90636973536447064385]; StrE false 29 [146478236; 95298625331368306592]; StrE false 28 [52800294; 71561132386888575632]; StrE false 28 [18206998; 17779700823065026080]; StrE false 27 [6000033; 49041037771237338140]; StrE false 27 [1887650; 98574708512299387280]; StrE false 26 [566295; 29572412553689816184]; StrE false 26 [161798; 65592117872482804624]; StrE false 25 [43967; 2606553769696414300]; StrE false 25 [11346; 32930723553470042400]; StrE false 24 [2776; 22951134486487350800]; StrE false 23 [642; 91630789038976018080]; StrE false 23 [140; 63794235102276003955]; StrE false 22 [28; 99751388680881650300]; StrE false 21 [5; 62196697805477054650]; StrE false 21 [1; 2217581419177646300]; StrE false 20 [17376988841260199871]; IntE 2752790311486764336; IntE 404822104630406520; IntE 55024363736171760; IntE 6878045467021470; IntE 786062339088168; IntE 81572506886508; IntE 7623598774440; IntE 635299897870; IntE 46627515440; IntE 2967205528; IntE 160389488; IntE 7160245; IntE 253460; IntE 6670; IntE 116; IntE 1];
[IntE 1; IntE 117; IntE 6786; IntE 260130; IntE 7413705; IntE 167549733; IntE 3127595016; IntE 49594720968; IntE 681927413310; IntE 8258898672310; IntE 89196105660948; IntE 867634845974676; IntE 7664107806109638; IntE 61902409203193230; IntE 459846468366578280; IntE 3157612416117170856; StrE false 20 [20129779152746964207]; StrE false 21 [1; 19594570260437846171]; StrE false 21 [6; 64414279224654700950]; StrE false 22 [34; 61948086486358704950]; StrE false 23 [169; 63545623783157654255]; StrE false 23 [783; 55425024141252022035]; StrE false 24 [3419; 14581923525463368880]; StrE false 25 [14122; 55881858039957393200]; StrE false 25 [55313; 35537277323166456700]; StrE false 26 [205765; 68198671642179218924]; StrE false 26 [728093; 95164530426172620808]; StrE false 27 [2453946; 28147121065989203464]; StrE false 27 [7887684; 47615746283536725420]; StrE false 28 [24207031; 66820738594302364220]; StrE false 28 [71007292; 89340833209953601712]; StrE false 29 [199278531; 66859757718256882224]; StrE false 29 [535561053; 85935598867815370977]; StrE false 30 [1379475441; 75894724356494137365]; StrE false 30 [3408115797; 28681083704279633490]; StrE false 30 [8082103176; 42300855641577416562]; StrE false 31 [18409235012; 96351948961370782169]; StrE false 31 [40301298271; 62283996374892793397]; StrE false 31 [84844838466; 57439992368195354520]; StrE false 32 [171865185611; 77891266591985461720]; StrE false 32 [335137111942; 96887969854371650354]; StrE false 32 [629403844380; 69765211677722367738]; StrE false 33 [1138921242212; 69098954464449998764]; StrE false 33 [1986490538743; 6567943833343021100]; StrE false 33 [3340915906067; 88318814628804171850]; StrE false 33 [5419708025399; 1050521508948989890]; StrE false 33 [8483021257146; 27731251057485375480]; StrE false 34 [12814776792710; 33381251597477907640]; StrE false 34 [18688216156035; 90347658579655281975]; StrE false 34 [26316059485030; 14979355959106417475]; StrE false 34 [35789840899641; 371924104384727766]; StrE false 34 [47018026279920; 53429782646936799222]; StrE false 34 [59676725662976; 6276262590342860551]; StrE false 34 [73188437133838; 56753906950420489355]; StrE false 34 [86741851417882; 74671297126424283680]; StrE false 34 [99358847987756; 60078031253904179488]; StrE false 35 [110004438843587; 66514963173965341576]; StrE false 35 [117724048586997; 32586188659857646248]; StrE false 35 [121783498538273; 9571919303301013360]; StrE false 35 [121783498538273; 9571919303301013360]; StrE false 35 [117724048586997; 32586188659857646248]; StrE false 35 [110004438843587; 66514963173965341576]; StrE false 34 [99358847987756; 60078031253904179488]; StrE false 34 [86741851417882; 74671297126424283680]; StrE false 34 [73188437133838; 56753906950420489355]; StrE false 34 [59676725662976; 6276262590342860551]; StrE false 34 [47018026279920; 53429782646936799222]; StrE false 34 [35789840899641; 371924104384727766]; StrE false 34 [26316059485030; 14979355959106417475]; StrE false 34 [18688216156035; 90347658579655281975]; StrE false 34 [12814776792710; 33381251597477907640]; StrE false 33 [8483021257146; 27731251057485375480]; StrE false 33 [5419708025399; 1050521508948989890]; StrE false 33 [3340915906067; 88318814628804171850]; StrE false 33 [1986490538743; 6567943833343021100]; StrE false 33 [1138921242212; 69098954464449998764]; StrE false 32 [629403844380; 69765211677722367738]; StrE false 32 [335137111942; 96887969854371650354]; StrE false 32 [171865185611; 77891266591985461720]; StrE false 31 [84844838466; 57439992368195354520]; StrE false 31 [40301298271; 62283996374892793397]; StrE false 31 [18409235012; 96351948961370782169]; StrE false 30 [8082103176; 42300855641577416562]; StrE false 30 [3408115797; 28681083704279633490]; StrE false 30 [1379475441; 75894724356494137365]; StrE false 29 [535561053; 85935598867815370977]; StrE false 29 [199278531; 66859757718256882224]; StrE false 28 [71007292; 89340833209953601712]; StrE false 28 [24207031; 66820738594302364220]; StrE false 27 [7887684; 47615746283536725420]; StrE false 27 [2453946; 28147121065989203464]; StrE false 26 [728093; 95164530426172620808]; StrE false 26 [205765; 68198671642179218924]; StrE false 25 [55313; 35537277323166456700]; StrE false 25 [14122; 55881858039957393200]; StrE false 24 [3419; 14581923525463368880]; StrE false 23 [783; 55425024141252022035]; StrE false 23 [169; 63545623783157654255]; StrE false 22 [34; 61948086486358704950]; StrE false 21 [6; 64414279224654700950]; StrE false 21 [1; 19594570260437846171]; StrE false 20 [20129779152746964207]; IntE 3157612416117170856; IntE 459846468366578280; IntE 61902409203193230; IntE 7664107806109638; IntE 867634845974676; IntE 89196105660948; IntE 8258898672310; IntE 681927413310; IntE 49594720968; IntE 3127595016; IntE 167549733; IntE 7413705; IntE 260130; IntE 6786; IntE 117; IntE 1];
[IntE 1; IntE 118; IntE 6903; IntE 266916; IntE 7673835; IntE 174963438; IntE 3295144749; IntE 52722315984; IntE 731522134278; IntE 8940826085620; IntE 97455004333258; IntE 956830951635624; IntE 8531742652084314; IntE 69566517009302868; IntE 521748877569771510; IntE 3617458884483749136; StrE false 20 [23287391568864135063]; StrE false 21 [1; 39724349413184810378]; StrE false 21 [7; 84008849485092547121]; StrE false 22 [41; 26362365711013405900]; StrE false 23 [204; 25493710269516359205]; StrE false 23 [953; 18970647924409676290]; StrE false 24 [4202; 70006947666715390915]; StrE false 25 [17541; 70463781565420762080]; StrE false 25 [69435; 91419135363123849900]; StrE false 26 [261079; 3735948965345675624]; StrE false 26 [933859; 63363202068351839732]; StrE false 27 [3182040; 23311651492161824272]; StrE false 28 [10341630; 75762867349525928884]; StrE false 28 [32094716; 14436484877839089640]; StrE false 28 [95214324; 56161571804255965932]; StrE false 29 [270285824; 56200590928210483936]; StrE false 29 [734839585; 52795356586072253201]; StrE false 30 [1915036495; 61830323224309508342]; StrE false 30 [4787591239; 4575808060773770855]; StrE false 31 [11490218973; 70981939345857050052]; StrE false 31 [26491338189; 38652804602948198731]; StrE false 31 [58710533284; 58635945336263575566]; StrE false 32 [125146136738; 19723988743088147917]; StrE false 32 [256710024078; 35331258960180816240]; StrE false 32 [507002297554; 74779236446357112074]; StrE false 32 [964540956323; 66653181532094018092]; StrE false 33 [1768325086593; 38864166142172366502]; StrE false 33 [3125411780955; 75666898297793019864]; StrE false 33 [5327406444810; 94886758462147192950]; StrE false 33 [8760623931466; 89369336137753161740]; StrE false 34 [13902729282545; 28781772566434365370]; StrE false 34 [21297798049856; 61112502654963283120]; StrE false 34 [31502992948746; 23728910177133189615]; StrE false 34 [45004275641066; 5327014538761699450]; StrE false 34 [62105900384671; 15351280063491145241]; StrE false 34 [82807867179561; 53801706751321526988]; StrE false 35 [106694751942896; 59706045237279659773]; StrE false 35 [132865162796814; 63030169540763349906]; StrE false 35 [159930288551721; 31425204076844773035]; StrE false 35 [186100699405639; 34749328380328463168]; StrE false 35 [209363286831344; 26592994427869521064]; StrE false 35 [227728487430584; 99101151833822987824]; StrE false 35 [239507547125270; 42158107963158659608]; StrE false 35 [243566997076546; 19143838606602026720]; StrE false 35 [239507547125270; 42158107963158659608]; StrE false 35 [227728487430584; 99101151833822987824]; StrE false 35 [209363286831344; 26592994427869521064]; StrE false 35 [186100699405639; 34749328380328463168]; StrE false 35 [159930288551721; 31425204076844773035]; StrE false 35 [132865162796814; 63030169540763349906]; StrE false 35 [106694751942896; 59706045237279659773]; StrE false 34 [82807867179561; 53801706751321526988]; StrE false 34 [62105900384671; 15351280063491145241]; StrE false 34 [45004275641066; 5327014538761699450]; StrE false 34 [31502992948746; 23728910177133189615]; StrE false 34 [21297798049856; 61112502654963283120]; StrE false 34 [13902729282545; 28781772566434365370]; StrE false 33 [8760623931466; 89369336137753161740]; StrE false 33 [5327406444810; 94886758462147192950]; StrE false 33 [3125411780955; 75666898297793019864]; StrE false 33 [1768325086593; 38864166142172366502]; StrE false 32 [964540956323; 66653181532094018092]; StrE false 32 [507002297554; 74779236446357112074]; StrE false 32 [256710024078; 35331258960180816240]; StrE false 32 [125146136738; 19723988743088147917]; StrE false 31 [58710533284; 58635945336263575566]; StrE false 31 [26491338189; 38652804602948198731]; StrE false 31 [11490218973; 70981939345857050052]; StrE false 30 [4787591239; 4575808060773770855]; StrE false 30 [1915036495; 61830323224309508342]; StrE false 29 [734839585; 52795356586072253201]; StrE false 29 [270285824; 56200590928210483936]; StrE false 28 [95214324; 56161571804255965932]; StrE false 28 [32094716; 14436484877839089640]; StrE false 28 [10341630; 75762867349525928884]; StrE false 27 [3182040; 23311651492161824272]; StrE false 26 [933859; 63363202068351839732]; StrE false 26 [261079; 3735948965345675624]; StrE false 25 [69435; 91419135363123849900]; StrE false 25 [17541; 70463781565420762080]; StrE false 24 [4202; 70006947666715390915]; StrE false 23 [953; 18970647924409676290]; StrE false 23 [204; 25493710269516359205]; StrE false 22 [41; 26362365711013405900]; StrE false 21 [7; 84008849485092547121]; StrE false 21 [1; 39724349413184810378]; StrE false 20 [23287391568864135063]; IntE 3617458884483749136; IntE 521748877569771510; IntE 69566517009302868; IntE 8531742652084314; IntE 956830951635624; IntE 97455004333258; IntE 8940826085620; IntE 731522134278; IntE 52722315984; IntE 3295144749; IntE 174963438; IntE 7673835; IntE 266916; IntE 6903; IntE 118; IntE 1];
[IntE 1; IntE 119; IntE 7021; IntE 273819; IntE 7940751; IntE 182637273; IntE 3470108187; IntE 56017460733; IntE 784244450262; IntE 9672348219898; IntE 106395830418878; IntE 1054285955968882; IntE 9488573603719938; IntE 78098259661387182; IntE 591315394579074378; IntE 4139207762053520646; StrE false 20 [26904850453347884199]; StrE false 21 [1; 63011740982048945441]; StrE false 21 [9; 23733198898277357499]; StrE false 22 [49; 10371215196105953021]; StrE false 23 [245; 51856075980529765105]; StrE false 24 [1157; 44464358193926035495]; StrE false 24 [5155; 88977595591125067205]; StrE false 25 [21744; 40470729232136152995]; StrE false 25 [86977; 61882916928544611980]; StrE false 26 [330514; 95155084328469525524]; StrE false 27 [1194938; 67099151033697515356]; StrE false 27 [4115899; 86674853560513664004]; StrE false 28 [13523670; 99074518841687753156]; StrE false 28 [42436346; 90199352227365018524]; StrE false 29 [127309040; 70598056682095055572]; StrE false 29 [365500149; 12362162732466449868]; StrE false 30 [1005125410; 8995947514282737137]; StrE false 30 [2649876081; 14625679810381761543]; StrE false 30 [6702627734; 66406131285083279197]; StrE false 31 [16277810212; 75557747406630820907]; StrE false 31 [37981557163; 9634743948805248783]; StrE false 31 [85201871473; 97288749939211774297]; StrE false 32 [183856670022; 78359934079351723483]; StrE false 32 [381856160816; 55055247703268964157]; StrE false 32 [763712321633; 10110495406537928314]; StrE false 33 [1471543253878; 41432417978451130166]; StrE false 33 [2732866042917; 5517347674266384594]; StrE false 33 [4893736867549; 14531064439965386366]; StrE false 33 [8452818225766; 70553656759940212814]; StrE false 34 [14088030376277; 84256094599900354690]; StrE false 34 [22663353214012; 18151108704187527110]; StrE false 34 [35200527332401; 89894275221397648490]; StrE false 34 [52800790998602; 84841412832096472735]; StrE false 34 [76507268589812; 29055924715894889065]; StrE false 35 [107110176025737; 20678294602252844691]; StrE false 35 [144913767564232; 69152986814812672229]; StrE false 35 [189502619122458; 13507751988601186761]; StrE false 35 [239559914739711; 22736214778043009679]; StrE false 35 [292795451348535; 94455373617608122941]; StrE false 35 [346030987957360; 66174532457173236203]; StrE false 35 [395463986236983; 61342322808197984232]; StrE false 35 [437091774261929; 25694146261692508888]; StrE false 35 [467236034555855; 41259259796981647432]; StrE false 35 [483074544201816; 61301946569760686328]; StrE false 35 [483074544201816; 61301946569760686328]; StrE false 35 [467236034555855; 41259259796981647432]; StrE false 35 [437091774261929; 25694146261692508888]; StrE false 35 [395463986236983; 61342322808197984232]; StrE false 35 [346030987957360; 66174532457173236203]; StrE false 35 [292795451348535; 94455373617608122941]; StrE false 35 [239559914739711; 22736214778043009679]; StrE false 35 [189502619122458; 13507751988601186761]; StrE false 35 [144913767564232; 69152986814812672229]; StrE false 35 [107110176025737; 20678294602252844691]; StrE false 34 [76507268589812; 29055924715894889065]; StrE false 34 [52800790998602; 84841412832096472735]; StrE false 34 [35200527332401; 89894275221397648490]; StrE false 34 [22663353214012; 18151108704187527110]; StrE false 34 [14088030376277; 84256094599900354690]; StrE false 33 [8452818225766; 70553656759940212814]; StrE false 33 [4893736867549; 14531064439965386366]; StrE false 33 [2732866042917; 5517347674266384594]; StrE false 33 [1471543253878; 41432417978451130166]; StrE false 32 [763712321633; 10110495406537928314]; StrE false 32 [381856160816; 55055247703268964157]; StrE false 32 [183856670022; 78359934079351723483]; StrE false 31 [85201871473; 97288749939211774297]; StrE false 31 [37981557163; 9634743948805248783]; StrE false 31 [16277810212; 75557747406630820907]; StrE false 30 [6702627734; 66406131285083279197]; StrE false 30 [2649876081; 14625679810381761543]; StrE false 30 [1005125410; 8995947514282737137]; StrE false 29 [365500149; 12362162732466449868]; StrE false 29 [127309040; 70598056682095055572]; StrE false 28 [42436346; 90199352227365018524]; StrE false 28 [13523670; 99074518841687753156]; StrE false 27 [4115899; 86674853560513664004]; StrE false 27 [1194938; 67099151033697515356]; StrE false 26 [330514; 95155084328469525524]; StrE false 25 [86977; 61882916928544611980]; StrE false 25 [21744; 40470729232136152995]; StrE false 24 [5155; 88977595591125067205]; StrE false 24 [1157; 44464358193926035495]; StrE false 23 [245; 51856075980529765105]; StrE false 22 [49; 10371215196105953021]; StrE false 21 [9; 23733198898277357499]; StrE false 21 [1; 63011740982048945441]; StrE false 20 [26904850453347884199]; IntE 4139207762053520646; IntE 591315394579074378; IntE 78098259661387182; IntE 9488573603719938; IntE 1054285955968882; IntE 106395830418878; IntE 9672348219898; IntE 784244450262; IntE 56017460733; IntE 3470108187; IntE 182637273; IntE 7940751; IntE 273819; IntE 7021; IntE 119; IntE 1];
[IntE 1; IntE 120; IntE 7140; IntE 280840; IntE 8214570; IntE 190578024; IntE 3652745460; IntE 59487568920; IntE 840261910995; IntE 10456592670160; IntE 116068178638776; IntE 1160681786387760; IntE 10542859559688820; IntE 87586833265107120; IntE 669413654240461560; IntE 4730523156632595024; StrE false 20 [31044058215401404845]; StrE false 21 [1; 89916591435396829640]; StrE false 22 [10; 86744939880326302940]; StrE false 22 [58; 34104414094383310520]; StrE false 23 [294; 62227291176635718126]; StrE false 24 [1402; 96320434174455800600]; StrE false 24 [6313; 33441953785051102700]; StrE false 25 [26900; 29448324823261220200]; StrE false 26 [108722; 2353646160680764975]; StrE false 26 [417492; 57038001257014137504]; StrE false 27 [1525453; 62254235362167040880]; StrE false 27 [5310838; 53774004594211179360]; StrE false 28 [17639570; 85749372402201417160]; StrE false 28 [55960017; 89273871069052771680]; StrE false 29 [169745387; 60797408909460074096]; StrE false 29 [492809189; 82960219414561505440]; StrE false 30 [1370625559; 21358110246749187005]; StrE false 30 [3655001491; 23621627324664498680]; StrE false 30 [9352503815; 81031811095465040740]; StrE false 31 [22980437947; 41963878691714100104]; StrE false 31 [54259367375; 85192491355436069690]; StrE false 32 [123183428637; 6923493888017023080]; StrE false 32 [269058541496; 75648684018563497780]; StrE false 32 [565712830839; 33415181782620687640]; StrE false 33 [1145568482449; 65165743109806892471]; StrE false 33 [2235255575511; 51542913384989058480]; StrE false 33 [4204409296795; 46949765652717514760]; StrE false 33 [7626602910466; 20048412114231770960]; StrE false 34 [13346555093315; 85084721199905599180]; StrE false 34 [22540848602044; 54809751359840567504]; StrE false 34 [36751383590290; 2407203304087881800]; StrE false 34 [57863880546414; 8045383925585175600]; StrE false 34 [88001318331004; 74735688053494121225]; StrE false 35 [129308059588415; 13897337547991361800]; StrE false 35 [183617444615549; 49734219318147733756]; StrE false 35 [252023943589969; 89831281417065516920]; StrE false 35 [334416386686690; 82660738803413858990]; StrE false 35 [429062533862169; 36243966766644196440]; StrE false 35 [532355366088247; 17191588395651132620]; StrE false 35 [638826439305896; 60629906074781359144]; StrE false 35 [741494974194344; 27516855265371220435]; StrE false 35 [832555760498912; 87036469069890493120]; StrE false 35 [904327808817784; 66953406058674156320]; StrE false 35 [950310578757672; 2561206366742333760]; StrE false 35 [966149088403633; 22603893139521372656]; StrE false 35 [950310578757672; 2561206366742333760]; StrE false 35 [904327808817784; 66953406058674156320]; StrE false 35 [832555760498912; 87036469069890493120]; StrE false 35 [741494974194344; 27516855265371220435]; StrE false 35 [638826439305896; 60629906074781359144]; StrE false 35 [532355366088247; 17191588395651132620]; StrE false 35 [429062533862169; 36243966766644196440]; StrE false 35 [334416386686690; 82660738803413858990]; StrE false 35 [252023943589969; 89831281417065516920]; StrE false 35 [183617444615549; 49734219318147733756]; StrE false 35 [129308059588415; 13897337547991361800]; StrE false 34 [88001318331004; 74735688053494121225]; StrE false 34 [57863880546414; 8045383925585175600]; StrE false 34 [36751383590290; 2407203304087881800]; StrE false 34 [22540848602044; 54809751359840567504]; StrE false 34 [13346555093315; 85084721199905599180]; StrE false 33 [7626602910466; 20048412114231770960]; StrE false 33 [4204409296795; 46949765652717514760]; StrE false 33 [2235255575511; 51542913384989058480]; StrE false 33 [1145568482449; 65165743109806892471]; StrE false 32 [565712830839; 33415181782620687640]; StrE false 32 [269058541496; 75648684018563497780]; StrE false 32 [123183428637; 6923493888017023080]; StrE false 31 [54259367375; 85192491355436069690]; StrE false 31 [22980437947; 41963878691714100104]; StrE false 30 [9352503815; 81031811095465040740]; StrE false 30 [3655001491; 23621627324664498680]; StrE false 30 [1370625559; 21358110246749187005]; StrE false 29 [492809189; 82960219414561505440]; StrE false 29 [169745387; 60797408909460074096]; StrE false 28 [55960017; 89273871069052771680]; StrE false 28 [17639570; 85749372402201417160]; StrE false 27 [5310838; 53774004594211179360]; StrE false 27 [1525453; 62254235362167040880]; StrE false 26 [417492; 57038001257014137504]; StrE false 26 [108722; 2353646160680764975]; StrE false 25 [26900; 29448324823261220200]; StrE false 24 [6313; 33441953785051102700]; StrE false 24 [1402; 96320434174455800600]; StrE false 23 [294; 62227291176635718126]; StrE false 22 [58; 34104414094383310520]; StrE false 22 [10; 86744939880326302940]; StrE false 21 [1; 89916591435396829640]; StrE false 20 [31044058215401404845]; IntE 4730523156632595024; IntE 669413654240461560; IntE 87586833265107120; IntE 10542859559688820; IntE 1160681786387760; IntE 116068178638776; IntE 10456592670160; IntE 840261910995; IntE 59487568920; IntE 3652745460; IntE 190578024; IntE 8214570; IntE 280840; IntE 7140; IntE 120; IntE 1];
[IntE 1; IntE 121; IntE 7260; IntE 287980; IntE 8495410; IntE 198792594; IntE 3843323484; IntE 63140314380; IntE 899749479915; IntE 11296854581155; IntE 126524771308936; IntE 1276749965026536; IntE 11703541346076580; IntE 98129692824795940; IntE 757000487505568680; IntE 5399936810873056584; StrE false 20 [35774581372033999869]; StrE false 21 [2; 20960649650798234485]; StrE false 22 [12; 76661531315723132580]; StrE false 22 [69; 20849353974709613460]; StrE false 23 [352; 96331705271019028646]; StrE false 24 [1697; 58547725351091518726]; StrE false 24 [7716; 29762387959506903300]; StrE false 25 [33213; 62890278608312322900]; StrE false 26 [135622; 31801970983941985175]; StrE false 26 [526214; 59391647417694902479]; StrE false 27 [1942946; 19292236619181178384]; StrE false 27 [6836292; 16028239956378220240]; StrE false 28 [22950409; 39523376996412596520]; StrE false 28 [73599588; 75023243471254188840]; StrE false 29 [225705405; 50071279978512845776]; StrE false 29 [662554577; 43757628324021579536]; StrE false 30 [1863434749; 4318329661310692445]; StrE false 30 [5025627050; 44979737571413685685]; StrE false 31 [13007505307; 4653438420129539420]; StrE false 31 [32332941763; 22995689787179140844]; StrE false 31 [77239805323; 27156370047150169794]; StrE false 32 [177442796012; 92115985243453092770]; StrE false 32 [392241970133; 82572177906580520860]; StrE false 32 [834771372336; 9063865801184185420]; StrE false 33 [1711281313288; 98580924892427580111]; StrE false 33 [3380824057961; 16708656494795950951]; StrE false 33 [6439664872306; 98492679037706573240]; StrE false 34 [11831012207261; 66998177766949285720]; StrE false 34 [20973158003782; 5133133314137370140]; StrE false 34 [35887403695360; 39894472559746166684]; StrE false 34 [59292232192334; 57216954663928449304]; StrE false 34 [94615264136704; 10452587229673057400]; StrE false 35 [145865198877418; 82781071979079296825]; StrE false 35 [217309377919419; 88633025601485483025]; StrE false 35 [312925504203964; 63631556866139095556]; StrE false 35 [435641388205519; 39565500735213250676]; StrE false 35 [586440330276660; 72492020220479375910]; StrE false 35 [763478920548860; 18904705570058055430]; StrE false 35 [961417899950416; 53435555162295329060]; StrE false 36 [1171181805394143; 77821494470432491764]; StrE false 36 [1380321413500240; 88146761340152579579]; StrE false 36 [1574050734693257; 14553324335261713555]; StrE false 36 [1736883569316697; 53989875128564649440]; StrE false 36 [1854638387575456; 69514612425416490080]; StrE false 36 [1916459667161305; 25165099506263706416]; StrE false 36 [1916459667161305; 25165099506263706416]; StrE false 36 [1854638387575456; 69514612425416490080]; StrE false 36 [1736883569316697; 53989875128564649440]; StrE false 36 [1574050734693257; 14553324335261713555]; StrE false 36 [1380321413500240; 88146761340152579579]; StrE false 36 [1171181805394143; 77821494470432491764]; StrE false 35 [961417899950416; 53435555162295329060]; StrE false 35 [763478920548860; 18904705570058055430]; StrE false 35 [586440330276660; 72492020220479375910]; StrE false 35 [435641388205519; 39565500735213250676]; StrE false 35 [312925504203964; 63631556866139095556]; StrE false 35 [217309377919419; 88633025601485483025]; StrE false 35 [145865198877418; 82781071979079296825]; StrE false 34 [94615264136704; 10452587229673057400]; StrE false 34 [59292232192334; 57216954663928449304]; StrE false 34 [35887403695360; 39894472559746166684]; StrE false 34 [20973158003782; 5133133314137370140]; StrE false 34 [11831012207261; 66998177766949285720]; StrE false 33 [6439664872306; 98492679037706573240]; StrE false 33 [3380824057961; 16708656494795950951]; StrE false 33 [1711281313288; 98580924892427580111]; StrE false 32 [834771372336; 9063865801184185420]; StrE false 32 [392241970133; 82572177906580520860]; StrE false 32 [177442796012; 92115985243453092770]; StrE false 31 [77239805323; 27156370047150169794]; StrE false 31 [32332941763; 22995689787179140844]; StrE false 31 [13007505307; 4653438420129539420]; StrE false 30 [5025627050; 44979737571413685685]; StrE false 30 [1863434749; 4318329661310692445]; StrE false 29 [662554577; 43757628324021579536]; StrE false 29 [225705405; 50071279978512845776]; StrE false 28 [73599588; 75023243471254188840]; StrE false 28 [22950409; 39523376996412596520]; StrE false 27 [6836292; 16028239956378220240]; StrE false 27 [1942946; 19292236619181178384]; StrE false 26 [526214; 59391647417694902479]; StrE false 26 [135622; 31801970983941985175]; StrE false 25 [33213; 62890278608312322900]; StrE false 24 [7716; 29762387959506903300]; StrE false 24 [1697; 58547725351091518726]; StrE false 23 [352; 96331705271019028646]; StrE false 22 [69; 20849353974709613460]; StrE false 22 [12; 76661531315723132580]; StrE false 21 [2; 20960649650798234485]; StrE false 20 [35774581372033999869]; IntE 5399936810873056584; IntE 757000487505568680; IntE 98129692824795940; IntE 11703541346076580; IntE 1276749965026536; IntE 126524771308936; IntE 11296854581155; IntE 899749479915; IntE 63140314380; IntE 3843323484; IntE 198792594; IntE 8495410; IntE 287980; IntE 7260; IntE 121; IntE 1];
[IntE 1; IntE 122; IntE 7381; IntE 295240; IntE 8783390; IntE 207288004; IntE 4042116078; IntE 66983637864; IntE 962889794295; IntE 12196604061070; IntE 137821625890091; IntE 1403274736335472; IntE 12980291311103116; IntE 109833234170872520; IntE 855130180330364620; IntE 6156937298378625264; StrE false 20 [41174518182907056453]; StrE false 21 [2; 56735231022832234354]; StrE false 22 [14; 97622180966521367065]; StrE false 22 [81; 97510885290432746040]; StrE false 23 [422; 17181059245728642106]; StrE false 24 [2050; 54879430622110547372]; StrE false 24 [9413; 88310113310598422026]; StrE false 25 [40929; 92652666567819226200]; StrE false 26 [168835; 94692249592254308075]; StrE false 26 [661836; 91193618401636887654]; StrE false 27 [2469160; 78683884036876080863]; StrE false 27 [8779238; 35320476575559398624]; StrE false 28 [29786701; 55551616952790816760]; StrE false 28 [96549998; 14546620467666785360]; StrE false 29 [299304994; 25094523449767034616]; StrE false 29 [888259982; 93828908302534425312]; StrE false 30 [2525989326; 48075957985332271981]; StrE false 30 [6889061799; 49298067232724378130]; StrE false 31 [18033132357; 49633175991543225105]; StrE false 31 [45340447070; 27649128207308680264]; StrE false 32 [109572747086; 50152059834329310638]; StrE false 32 [254682601336; 19272355290603262564]; StrE false 32 [569684766146; 74688163150033613630]; StrE false 33 [1227013342469; 91636043707764706280]; StrE false 33 [2546052685625; 7644790693611765531]; StrE false 33 [5092105371250; 15289581387223531062]; StrE false 33 [9820488930268; 15201335532502524191]; StrE false 34 [18270677079568; 65490856804655858960]; StrE false 34 [32804170211043; 72131311081086655860]; StrE false 34 [56860561699142; 45027605873883536824]; StrE false 34 [95179635887694; 97111427223674615988]; StrE false 35 [153907496329038; 67669541893601506704]; StrE false 35 [240480463014122; 93233659208752354225]; StrE false 35 [363174576796838; 71414097580564779850]; StrE false 35 [530234882123384; 52264582467624578581]; StrE false 35 [748566892409484; 3197057601352346232]; StrE false 36 [1022081718482180; 12057520955692626586]; StrE false 36 [1349919250825520; 91396725790537431340]; StrE false 36 [1724896820499276; 72340260732353384490]; StrE false 36 [2132599705344560; 31257049632727820824]; StrE false 36 [2551503218894384; 65968255810585071343]; StrE false 36 [2954372148193498; 2700085675414293134]; StrE false 36 [3310934304009954; 68543199463826362995]; StrE false 36 [3591521956892154; 23504487553981139520]; StrE false 36 [3771098054736761; 94679711931680196496]; StrE false 36 [3832919334322610; 50330199012527412832]; StrE false 36 [3771098054736761; 94679711931680196496]; StrE false 36 [3591521956892154; 23504487553981139520]; StrE false 36 [3310934304009954; 68543199463826362995]; StrE false 36 [2954372148193498; 2700085675414293134]; StrE false 36 [2551503218894384; 65968255810585071343]; StrE false 36 [2132599705344560; 31257049632727820824]; StrE false 36 [1724896820499276; 72340260732353384490]; StrE false 36 [1349919250825520; 91396725790537431340]; StrE false 36 [1022081718482180; 12057520955692626586]; StrE false 35 [748566892409484; 3197057601352346232]; StrE false 35 [530234882123384; 52264582467624578581]; StrE false 35 [363174576796838; 71414097580564779850]; StrE false 35 [240480463014122; 93233659208752354225]; StrE false 35 [153907496329038; 67669541893601506704]; StrE false 34 [95179635887694; 97111427223674615988]; StrE false 34 [56860561699142; 45027605873883536824]; StrE false 34 [32804170211043; 72131311081086655860]; StrE false 34 [18270677079568; 65490856804655858960]; StrE false 33 [9820488930268; 15201335532502524191]; StrE false 33 [5092105371250; 15289581387223531062]; StrE false 33 [2546052685625; 7644790693611765531]; StrE false 33 [1227013342469; 91636043707764706280]; StrE false 32 [569684766146; 74688163150033613630]; StrE false 32 [254682601336; 19272355290603262564]; StrE false 32 [109572747086; 50152059834329310638]; StrE false 31 [45340447070; 27649128207308680264]; StrE false 31 [18033132357; 49633175991543225105]; StrE false 30 [6889061799; 49298067232724378130]; StrE false 30 [2525989326; 48075957985332271981]; StrE false 29 [888259982; 93828908302534425312]; StrE false 29 [299304994; 25094523449767034616]; StrE false 28 [96549998; 14546620467666785360]; StrE false 28 [29786701; 55551616952790816760]; StrE false 27 [8779238; 35320476575559398624]; StrE false 27 [2469160; 78683884036876080863]; StrE false 26 [661836; 91193618401636887654]; StrE false 26 [168835; 94692249592254308075]; StrE false 25 [40929; 92652666567819226200]; StrE false 24 [9413; 88310113310598422026]; StrE false 24 [2050; 54879430622110547372]; StrE false 23 [422; 17181059245728642106]; StrE false 22 [81; 97510885290432746040]; StrE false 22 [14; 97622180966521367065]; StrE false 21 [2; 56735231022832234354]; StrE false 20 [41174518182907056453]; IntE 6156937298378625264; IntE 855130180330364620; IntE 109833234170872520; IntE 12980291311103116; IntE 1403274736335472; IntE 137821625890091; IntE 12196604061070; IntE 962889794295; IntE 66983637864; IntE 4042116078; IntE 207288004; IntE 8783390; IntE 295240; IntE 7381; IntE 122; IntE 1];
[IntE 1; IntE 123; IntE 7503; IntE 302621; IntE 9078630; IntE 216071394; IntE 4249404082; IntE 71025753942; IntE 1029873432159; IntE 13159493855365; IntE 150018229951161; IntE 1541096362225563; IntE 14383566047438588; IntE 122813525481975636; IntE 964963414501237140; IntE 7012067478708989884; StrE false 20 [47331455481285681717]; StrE false 21 [2; 97909749205739290807]; StrE false 22 [17; 54357411989353601419]; StrE false 22 [96; 95133066256954113105]; StrE false 23 [504; 14691944536161388146]; StrE false 24 [2472; 72060489867839189478]; StrE false 25 [11464; 43189543932708969398]; StrE false 25 [50343; 80962779878417648226]; StrE false 26 [209765; 87344916160073534275]; StrE false 26 [830672; 85885867993891195729]; StrE false 27 [3130997; 69877502438512968517]; StrE false 28 [11248399; 14004360612435479487]; StrE false 28 [38565939; 90872093528350215384]; StrE false 29 [126336699; 70098237420457602120]; StrE false 29 [395854992; 39641143917433819976]; StrE false 30 [1187564977; 18923431752301459928]; StrE false 30 [3414249309; 41904866287866697293]; StrE false 30 [9415051125; 97374025218056650111]; StrE false 31 [24922194156; 98931243224267603235]; StrE false 31 [63373579427; 77282304198851905369]; StrE false 32 [154913194156; 77801188041637990902]; StrE false 32 [364255348422; 69424415124932573202]; StrE false 32 [824367367482; 93960518440636876194]; StrE false 33 [1796698108616; 66324206857798319910]; StrE false 33 [3773066028094; 99280834401376471811]; StrE false 33 [7638158056875; 22934372080835296593]; StrE false 34 [14912594301518; 30490916919726055253]; StrE false 34 [28091166009836; 80692192337158383151]; StrE false 34 [51074847290612; 37622167885742514820]; StrE false 34 [89664731910186; 17158916954970192684]; StrE false 35 [152040197586837; 42139033097558152812]; StrE false 35 [249087132216733; 64780969117276122692]; StrE false 35 [394387959343161; 60903201102353860929]; StrE false 35 [603655039810961; 64647756789317134075]; StrE false 35 [893409458920223; 23678680048189358431]; StrE false 36 [1278801774532868; 55461640068976924813]; StrE false 36 [1770648610891664; 15254578557044972818]; StrE false 36 [2372000969307701; 3454246746230057926]; StrE false 36 [3074816071324797; 63736986522890815830]; StrE false 36 [3857496525843837; 3597310365081205314]; StrE false 36 [4684102924238944; 97225305443312892167]; StrE false 36 [5505875367087882; 68668341485999364477]; StrE false 36 [6265306452203452; 71243285139240656129]; StrE false 36 [6902456260902108; 92047687017807502515]; StrE false 36 [7362620011628916; 18184199485661336016]; StrE false 36 [7604017389059372; 45009910944207609328]; StrE false 36 [7604017389059372; 45009910944207609328]; StrE false 36 [7362620011628916; 18184199485661336016]; StrE false 36 [6902456260902108; 92047687017807502515]; StrE false 36 [6265306452203452; 71243285139240656129]; StrE false 36 [5505875367087882; 68668341485999364477]; StrE false 36 [4684102924238944; 97225305443312892167]; StrE false 36 [3857496525843837; 3597310365081205314]; StrE false 36 [3074816071324797; 63736986522890815830]; StrE false 36 [2372000969307701; 3454246746230057926]; StrE false 36 [1770648610891664; 15254578557044972818]; StrE false 36 [1278801774532868; 55461640068976924813]; StrE false 35 [893409458920223; 23678680048189358431]; StrE false 35 [603655039810961; 64647756789317134075]; StrE false 35 [394387959343161; 60903201102353860929]; StrE false 35 [249087132216733; 64780969117276122692]; StrE false 35 [152040197586837; 42139033097558152812]; StrE false 34 [89664731910186; 17158916954970192684]; StrE false 34 [51074847290612; 37622167885742514820]; StrE false 34 [28091166009836; 80692192337158383151]; StrE false 34 [14912594301518; 30490916919726055253]; StrE false 33 [7638158056875; 22934372080835296593]; StrE false 33 [3773066028094; 99280834401376471811]; StrE false 33 [1796698108616; 66324206857798319910]; StrE false 32 [824367367482; 93960518440636876194]; StrE false 32 [364255348422; 69424415124932573202]; StrE false 32 [154913194156; 77801188041637990902]; StrE false 31 [63373579427; 77282304198851905369]; StrE false 31 [24922194156; 98931243224267603235]; StrE false 30 [9415051125; 97374025218056650111]; StrE false 30 [3414249309; 41904866287866697293]; StrE false 30 [1187564977; 18923431752301459928]; StrE false 29 [395854992; 39641143917433819976]; StrE false 29 [126336699; 70098237420457602120]; StrE false 28 [38565939; 90872093528350215384]; StrE false 28 [11248399; 14004360612435479487]; StrE false 27 [3130997; 69877502438512968517]; StrE false 26 [830672; 85885867993891195729]; StrE false 26 [209765; 87344916160073534275]; StrE false 25 [50343; 80962779878417648226]; StrE false 25 [11464; 43189543932708969398]; StrE false 24 [2472; 72060489867839189478]; StrE false 23 [504; 14691944536161388146]; StrE false 22 [96; 95133066256954113105]; StrE false 22 [17; 54357411989353601419]; StrE false 21 [2; 97909749205739290807]; StrE false 20 [47331455481285681717]; IntE 7012067478708989884; IntE 964963414501237140; IntE 122813525481975636; IntE 14383566047438588; IntE 1541096362225563; IntE 150018229951161; IntE 13159493855365; IntE 1029873432159; IntE 71025753942; IntE 4249404082; IntE 216071394; IntE 9078630; IntE 302621; IntE 7503; IntE 123; IntE 1];
[IntE 1; IntE 124; IntE 7626; IntE 310124; IntE 9381251; IntE 225150024; IntE 4465475476; IntE 75275158024; IntE 1100899186101; IntE 14189367287524; IntE 163177723806526; IntE 1691114592176724; IntE 15924662409664151; IntE 137197091529414224; IntE 1087776939983212776; IntE 7977030893210227024; StrE false 20 [54343522959994671601]; StrE false 21 [3; 45241204687024972524]; StrE false 22 [20; 52267161195092892226]; StrE false 23 [114; 49490478246307714524]; StrE false 23 [601; 9825010793115501251]; StrE false 24 [2976; 86752434404000577624]; StrE false 25 [13937; 15250033800548158876]; StrE false 25 [61808; 24152323811126617624]; StrE false 26 [260109; 68307696038491182501]; StrE false 27 [1040438; 73230784153964730004]; StrE false 27 [3961670; 55763370432404164246]; StrE false 28 [14379396; 83881863050948448004]; StrE false 28 [49814339; 4876454140785694871]; StrE false 29 [164902639; 60970330948807817504]; StrE false 29 [522191692; 9739381337891422096]; StrE false 30 [1583419969; 58564575669735279904]; StrE false 30 [4601814286; 60828298040168157221]; StrE false 31 [12829300435; 39278891505923347404]; StrE false 31 [34337245282; 96305268442324253346]; StrE false 31 [88295773584; 76213547423119508604]; StrE false 32 [218286773584; 55083492240489896271]; StrE false 32 [519168542579; 47225603166570564104]; StrE false 33 [1188622715905; 63384933565569449396]; StrE false 33 [2621065476099; 60284725298435196104]; StrE false 33 [5569764136711; 65605041259174791721]; StrE false 34 [11411224084970; 22215206482211768404]; StrE false 34 [22550752358393; 53425289000561351846]; StrE false 34 [43003760311355; 11183109256884438404]; StrE false 34 [79166013300449; 18314360222900897971]; StrE false 35 [140739579200798; 54781084840712707504]; StrE false 35 [241704929497023; 59297950052528345496]; StrE false 35 [401127329803571; 6920002214834275504]; StrE false 35 [643475091559895; 25684170219629983621]; StrE false 35 [998042999154123; 25550957891670995004]; StrE false 36 [1497064498731184; 88326436837506492506]; StrE false 36 [2172211233453091; 79140320117166283244]; StrE false 36 [3049450385424532; 70716218626021897631]; StrE false 36 [4142649580199365; 18708825303275030744]; StrE false 36 [5446817040632498; 67191233269120873756]; StrE false 36 [6932312597168634; 67334296887972021144]; StrE false 36 [8541599450082782; 822615808394097481]; StrE false 37 [10189978291326827; 65893646929312256644]; StrE false 37 [11771181819291335; 39911626625240020606]; StrE false 37 [13167762713105561; 63290972157048158644]; StrE false 37 [14265076272531025; 10231886503468838531]; StrE false 37 [14966637400688288; 63194110429868945344]; StrE false 37 [15208034778118744; 90019821888415218656]; StrE false 37 [14966637400688288; 63194110429868945344]; StrE false 37 [14265076272531025; 10231886503468838531]; StrE false 37 [13167762713105561; 63290972157048158644]; StrE false 37 [11771181819291335; 39911626625240020606]; StrE false 37 [10189978291326827; 65893646929312256644]; StrE false 36 [8541599450082782; 822615808394097481]; StrE false 36 [6932312597168634; 67334296887972021144]; StrE false 36 [5446817040632498; 67191233269120873756]; StrE false 36 [4142649580199365; 18708825303275030744]; StrE false 36 [3049450385424532; 70716218626021897631]; StrE false 36 [2172211233453091; 79140320117166283244]; StrE false 36 [1497064498731184; 88326436837506492506]; StrE false 35 [998042999154123; 25550957891670995004]; StrE false 35 [643475091559895; 25684170219629983621]; StrE false 35 [401127329803571; 6920002214834275504]; StrE false 35 [241704929497023; 59297950052528345496]; StrE false 35 [140739579200798; 54781084840712707504]; StrE false 34 [79166013300449; 18314360222900897971]; StrE false 34 [43003760311355; 11183109256884438404]; StrE false 34 [22550752358393; 53425289000561351846]; StrE false 34 [11411224084970; 22215206482211768404]; StrE false 33 [5569764136711; 65605041259174791721]; StrE false 33 [2621065476099; 60284725298435196104]; StrE false 33 [1188622715905; 63384933565569449396]; StrE false 32 [519168542579; 47225603166570564104]; StrE false 32 [218286773584; 55083492240489896271]; StrE false 31 [88295773584; 76213547423119508604]; StrE false 31 [34337245282; 96305268442324253346]; StrE false 31 [12829300435; 39278891505923347404]; StrE false 30 [4601814286; 60828298040168157221]; StrE false 30 [1583419969; 58564575669735279904]; StrE false 29 [522191692; 9739381337891422096]; StrE false 29 [164902639; 60970330948807817504]; StrE false 28 [49814339; 4876454140785694871]; StrE false 28 [14379396; 83881863050948448004]; StrE false 27 [3961670; 55763370432404164246]; StrE false 27 [1040438; 73230784153964730004]; StrE false 26 [260109; 68307696038491182501]; StrE false 25 [61808; 24152323811126617624]; StrE false 25 [13937; 15250033800548158876]; StrE false 24 [2976; 86752434404000577624]; StrE false 23 [601; 9825010793115501251]; StrE false 23 [114; 49490478246307714524]; StrE false 22 [20; 52267161195092892226]; StrE false 21 [3; 45241204687024972524]; StrE false 20 [54343522959994671601]; IntE 7977030893210227024; IntE 1087776939983212776; IntE 137197091529414224; IntE 15924662409664151; IntE 1691114592176724; IntE 163177723806526; IntE 14189367287524; IntE 1100899186101; IntE 75275158024; IntE 4465475476; IntE 225150024; IntE 9381251; IntE 310124; IntE 7626; IntE 124; IntE 1];
[IntE 1; IntE 125; IntE 7750; IntE 317750; IntE 9691375; IntE 234531275; IntE 4690625500; IntE 79740633500; IntE 1176174344125; IntE 15290266473625; IntE 177367091094050; IntE 1854292315983250; IntE 17615777001840875; IntE 153121753939078375; IntE 1224974031512627000; IntE 9064807833193439800; StrE false 20 [62320553853204898625]; StrE false 21 [3; 99584727647019644125]; StrE false 22 [23; 97508365882117864750]; StrE false 23 [135; 1757639441400606750]; StrE false 23 [715; 59315489039423215775]; StrE false 24 [3577; 96577445197116078875]; StrE false 25 [16914; 2002468204548736500]; StrE false 25 [75745; 39402357611674776500]; StrE false 26 [321917; 92460019849617800125]; StrE false 27 [1300548; 41538480192455912505]; StrE false 27 [5002109; 28994154586368894250]; StrE false 28 [18341067; 39645233483352612250]; StrE false 28 [64193735; 88758317191734142875]; StrE false 29 [214716978; 65846785089593512375]; StrE false 29 [687094331; 70709712286699239600]; StrE false 30 [2105611661; 68303957007626702000]; StrE false 30 [6185234256; 19392873709903437125]; StrE false 31 [17431114722; 107189546091504625]; StrE false 31 [47166545718; 35584159948247600750]; StrE false 32 [122633018867; 72518815865443761950]; StrE false 32 [306582547169; 31297039663609404875]; StrE false 32 [737455316164; 2309095407060460375]; StrE false 33 [1707791258485; 10610536732140013500]; StrE false 33 [3809688192005; 23669658864004645500]; StrE false 33 [8190829612811; 25889766557609987825]; StrE false 34 [16980988221681; 87820247741386560125]; StrE false 34 [33961976443363; 75640495482773120250]; StrE false 34 [65554512669748; 64608398257445790250]; StrE false 35 [122169773611804; 29497469479785336375]; StrE false 35 [219905592501247; 73095445063613605475]; StrE false 35 [382444508697822; 14079034893241053000]; StrE false 35 [642832259300594; 66217952267362621000]; StrE false 36 [1044602421363466; 32604172434464259125]; StrE false 36 [1641518090714018; 51235128111300978625]; StrE false 36 [2495107497885308; 13877394729177487510]; StrE false 36 [3669275732184276; 67466756954672775750]; StrE false 36 [5221661618877624; 49856538743188180875]; StrE false 36 [7192099965623897; 89425043929296928375]; StrE false 36 [9589466620831863; 85900058572395904500]; StrE false 37 [12379129637801133; 34525530157092894900]; StrE false 37 [15473912047251416; 68156912696366118625]; StrE false 37 [18731577741409609; 66716262737706354125]; StrE false 37 [21961160110618163; 5805273554552277250]; StrE false 37 [24938944532396897; 3202598782288179250]; StrE false 37 [27432838985636586; 73522858660516997175]; StrE false 37 [29231713673219313; 73425996933337783875]; StrE false 37 [30174672178807033; 53213932318284164000]; StrE false 37 [30174672178807033; 53213932318284164000]; StrE false 37 [29231713673219313; 73425996933337783875]; StrE false 37 [27432838985636586; 73522858660516997175]; StrE false 37 [24938944532396897; 3202598782288179250]; StrE false 37 [21961160110618163; 5805273554552277250]; StrE false 37 [18731577741409609; 66716262737706354125]; StrE false 37 [15473912047251416; 68156912696366118625]; StrE false 37 [12379129637801133; 34525530157092894900]; StrE false 36 [9589466620831863; 85900058572395904500]; StrE false 36 [7192099965623897; 89425043929296928375]; StrE false 36 [5221661618877624; 49856538743188180875]; StrE false 36 [3669275732184276; 67466756954672775750]; StrE false 36 [2495107497885308; 13877394729177487510]; StrE false 36 [1641518090714018; 51235128111300978625]; StrE false 36 [1044602421363466; 32604172434464259125]; StrE false 35 [642832259300594; 66217952267362621000]; StrE false 35 [382444508697822; 14079034893241053000]; StrE false 35 [219905592501247; 73095445063613605475]; StrE false 35 [122169773611804; 29497469479785336375]; StrE false 34 [65554512669748; 64608398257445790250]; StrE false 34 [33961976443363; 75640495482773120250]; StrE false 34 [16980988221681; 87820247741386560125]; StrE false 33 [8190829612811; 25889766557609987825]; StrE false 33 [3809688192005; 23669658864004645500]; StrE false 33 [1707791258485; 10610536732140013500]; StrE false 32 [737455316164; 2309095407060460375]; StrE false 32 [306582547169; 31297039663609404875]; StrE false 32 [122633018867; 72518815865443761950]; StrE false 31 [47166545718; 35584159948247600750]; StrE false 31 [17431114722; 107189546091504625]; StrE false 30 [6185234256; 19392873709903437125]; StrE false 30 [2105611661; 68303957007626702000]; StrE false 29 [687094331; 70709712286699239600]; StrE false 29 [214716978; 65846785089593512375]; StrE false 28 [64193735; 88758317191734142875]; StrE false 28 [18341067; 39645233483352612250]; StrE false 27 [5002109; 28994154586368894250]; StrE false 27 [1300548; 41538480192455912505]; StrE false 26 [321917; 92460019849617800125]; StrE false 25 [75745; 39402357611674776500]; StrE false 25 [16914; 2002468204548736500]; StrE false 24 [3577; 96577445197116078875]; StrE false 23 [715; 59315489039423215775]; StrE false 23 [135; 1757639441400606750]; StrE false 22 [23; 97508365882117864750]; StrE false 21 [3; 99584727647019644125]; StrE false 20 [62320553853204898625]; IntE 9064807833193439800; IntE 1224974031512627000; IntE 153121753939078375; IntE 17615777001840875; IntE 1854292315983250; IntE 177367091094050; IntE 15290266473625; IntE 1176174344125; IntE 79740633500; IntE 4690625500; IntE 234531275; IntE 9691375; IntE 317750; IntE 7750; IntE 125; IntE 1];
[IntE 1; IntE 126; IntE 7875; IntE 325500; IntE 10009125; IntE 244222650; IntE 4925156775; IntE 84431259000; IntE 1255914977625; IntE 16466440817750; IntE 192657357567675; IntE 2031659407077300; IntE 19470069317824125; IntE 170737530940919250; IntE 1378095785451705375; StrE false 20 [10289781864706066800]; StrE false 20 [71385361686398338425]; StrE false 21 [4; 61905281500224542750]; StrE false 22 [27; 97093093529137508875]; StrE false 23 [158; 99266005323518471500]; StrE false 23 [850; 61073128480823822525]; StrE false 24 [4293; 55892934236539294650]; StrE false 25 [20491; 98579913401664815375]; StrE false 25 [92659; 41404825816223513000]; StrE false 26 [397663; 31862377461292576625]; StrE false 27 [1622466; 33998500042073712630]; StrE false 27 [6302657; 70532634778824806755]; StrE false 28 [23343176; 68639388069721506500]; StrE false 28 [82534803; 28403550675086755125]; StrE false 29 [278910714; 54605102281327655250]; StrE false 29 [901811310; 36556497376292751975]; StrE false 30 [2792705993; 39013669294325941600]; StrE false 30 [8290845917; 87696830717530139125]; StrE false 31 [23616348978; 19500063255994941750]; StrE false 31 [64597660440; 35691349494339105375]; StrE false 32 [169799564586; 8102975813691362700]; StrE false 32 [429215566037; 3815855529053166825]; StrE false 33 [1044037863333; 33606135070669865250]; StrE false 33 [2445246574649; 12919632139200473875]; StrE false 33 [5517479450490; 34280195596144659000]; StrE false 34 [12000517804816; 49559425421614633325]; StrE false 34 [25171817834493; 13710014298996547950]; StrE false 34 [50942964665045; 63460743224159680375]; StrE false 34 [99516489113112; 40248893740218910500]; StrE false 35 [187724286281552; 94105867737231126625]; StrE false 35 [342075366113052; 2592914543398941850]; StrE false 35 [602350101199069; 87174479956854658475]; StrE false 36 [1025276767998416; 80296987160603674000]; StrE false 36 [1687434680664060; 98822124701826880125]; StrE false 36 [2686120512077484; 83839300545765237750]; StrE false 36 [4136625588599326; 65112522840478466135]; StrE false 36 [6164383230069584; 81344151683850263260]; StrE false 36 [8890937351061901; 17323295697860956625]; StrE false 37 [12413761584501522; 39281582672485109250]; StrE false 37 [16781566586455761; 75325102501692832875]; StrE false 37 [21968596258632997; 20425588729488799400]; StrE false 37 [27853041685052550; 2682442853459013525]; StrE false 37 [34205489788661026; 34873175434072472750]; StrE false 37 [40692737852027772; 72521536292258631375]; StrE false 37 [46900104643015060; 9007872336840456500]; StrE false 37 [52371783518033483; 76725457442805176425]; StrE false 37 [56664552658855900; 46948855593854781050]; StrE false 37 [59406385852026347; 26639929251621947875]; StrE false 37 [60349344357614067; 6427864636568328000]; StrE false 37 [59406385852026347; 26639929251621947875]; StrE false 37 [56664552658855900; 46948855593854781050]; StrE false 37 [52371783518033483; 76725457442805176425]; StrE false 37 [46900104643015060; 9007872336840456500]; StrE false 37 [40692737852027772; 72521536292258631375]; StrE false 37 [34205489788661026; 34873175434072472750]; StrE false 37 [27853041685052550; 2682442853459013525]; StrE false 37 [21968596258632997; 20425588729488799400]; StrE false 37 [16781566586455761; 75325102501692832875]; StrE false 37 [12413761584501522; 39281582672485109250]; StrE false 36 [8890937351061901; 17323295697860956625]; StrE false 36 [6164383230069584; 81344151683850263260]; StrE false 36 [4136625588599326; 65112522840478466135]; StrE false 36 [2686120512077484; 83839300545765237750]; StrE false 36 [1687434680664060; 98822124701826880125]; StrE false 36 [1025276767998416; 80296987160603674000]; StrE false 35 [602350101199069; 87174479956854658475]; StrE false 35 [342075366113052; 2592914543398941850]; StrE false 35 [187724286281552; 94105867737231126625]; StrE false 34 [99516489113112; 40248893740218910500]; StrE false 34 [50942964665045; 63460743224159680375]; StrE false 34 [25171817834493; 13710014298996547950]; StrE false 34 [12000517804816; 49559425421614633325]; StrE false 33 [5517479450490; 34280195596144659000]; StrE false 33 [2445246574649; 12919632139200473875]; StrE false 33 [1044037863333; 33606135070669865250]; StrE false 32 [429215566037; 3815855529053166825]; StrE false 32 [169799564586; 8102975813691362700]; StrE false 31 [64597660440; 35691349494339105375]; StrE false 31 [23616348978; 19500063255994941750]; StrE false 30 [8290845917; 87696830717530139125]; StrE false 30 [2792705993; 39013669294325941600]; StrE false 29 [901811310; 36556497376292751975]; StrE false 29 [278910714; 54605102281327655250]; StrE false 28 [82534803; 28403550675086755125]; StrE false 28 [23343176; 68639388069721506500]; StrE false 27 [6302657; 70532634778824806755]; StrE false 27 [1622466; 33998500042073712630]; StrE false 26 [397663; 31862377461292576625]; StrE false 25 [92659; 41404825816223513000]; StrE false 25 [20491; 98579913401664815375]; StrE false 24 [4293; 55892934236539294650]; StrE false 23 [850; 61073128480823822525]; StrE false 23 [158; 99266005323518471500]; StrE false 22 [27; 97093093529137508875]; StrE false 21 [4; 61905281500224542750]; StrE false 20 [71385361686398338425]; StrE false 20 [10289781864706066800]; IntE 1378095785451705375; IntE 170737530940919250; IntE 19470069317824125; IntE 2031659407077300; IntE 192657357567675; IntE 16466440817750; IntE 1255914977625; IntE 84431259000; IntE 4925156775; IntE 244222650; IntE 10009125; IntE 325500; IntE 7875; IntE 126; IntE 1];
[IntE 1; IntE 127; IntE 8001; IntE 333375; IntE 10334625; IntE 254231775; IntE 5169379425; IntE 89356415775; IntE 1340346236625; IntE 17722355795375; IntE 209123798385425; IntE 2224316764644975; IntE 21501728724901425; IntE 190207600258743375; IntE 1548833316392624625; StrE false 20 [11667877650157772175]; StrE false 20 [81675143551104405225]; StrE false 21 [5; 33290643186622881175]; StrE false 22 [32; 58998375029362051625]; StrE false 23 [186; 96359098852655980375]; StrE false 24 [1009; 60339133804342294025]; StrE false 24 [5144; 16966062717363117175]; StrE false 25 [24785; 54472847638204110025]; StrE false 26 [113151; 39984739217888328375]; StrE false 26 [490322; 73267203277516089625]; StrE false 27 [2020129; 65860877503366289255]; StrE false 27 [7925124; 4531134820898519385]; StrE false 28 [29645834; 39172022848546313255]; StrE false 29 [105877979; 97042938744808261625]; StrE false 29 [361445517; 83008652956414410375]; StrE false 30 [1180722024; 91161599657620407225]; StrE false 30 [3694517303; 75570166670618693575]; StrE false 31 [11083551911; 26710500011856080725]; StrE false 31 [31907194896; 7196893973525080875]; StrE false 31 [88214009418; 55191412750334047125]; StrE false 32 [234397225026; 43794325308030468075]; StrE false 32 [599015130623; 11918831342744529525]; StrE false 33 [1473253429370; 37421990599723032075]; StrE false 33 [3489284437982; 46525767209870339125]; StrE false 33 [7962726025139; 47199827735345132875]; StrE false 34 [17517997255306; 83839621017759292325]; StrE false 34 [37172335639309; 63269439720611181275]; StrE false 34 [76114782499538; 77170757523156228325]; StrE false 35 [150459453778158; 3709636964378590875]; StrE false 35 [287240775394665; 34354761477450037125]; StrE false 35 [529799652394604; 96698782280630068475]; StrE false 35 [944425467312121; 89767394500253600325]; StrE false 36 [1627626869197486; 67471467117458332475]; StrE false 36 [2712711448662477; 79119111862430554125]; StrE false 36 [4373555192741545; 82661425247592117875]; StrE false 36 [6822746100676811; 48951823386243703885]; StrE false 37 [10301008818668911; 46456674524328729395]; StrE false 37 [15055320581131485; 98667447381711219885]; StrE false 37 [21304698935563423; 56604878370346065875]; StrE false 37 [29195328170957284; 14606685174177942125]; StrE false 37 [38750162845088758; 95750691231181632275]; StrE false 37 [49821637943685547; 23108031582947812925]; StrE false 37 [62058531473713576; 37555618287531486275]; StrE false 37 [74898227640688799; 7394711726331104125]; StrE false 37 [87592842495042832; 81529408629099087875]; StrE false 37 [99271888161048543; 85733329779645632925]; StrE false 38 [109036336176889384; 23674313036659957475]; StrE false 38 [116070938510882247; 73588784845476728925]; StrE false 38 [119755730209640414; 33067793888190275875]; StrE false 38 [119755730209640414; 33067793888190275875]; StrE false 38 [116070938510882247; 73588784845476728925]; StrE false 38 [109036336176889384; 23674313036659957475]; StrE false 37 [99271888161048543; 85733329779645632925]; StrE false 37 [87592842495042832; 81529408629099087875]; StrE false 37 [74898227640688799; 7394711726331104125]; StrE false 37 [62058531473713576; 37555618287531486275]; StrE false 37 [49821637943685547; 23108031582947812925]; StrE false 37 [38750162845088758; 95750691231181632275]; StrE false 37 [29195328170957284; 14606685174177942125]; StrE false 37 [21304698935563423; 56604878370346065875]; StrE false 37 [15055320581131485; 98667447381711219885]; StrE false 37 [10301008818668911; 46456674524328729395]; StrE false 36 [6822746100676811; 48951823386243703885]; StrE false 36 [4373555192741545; 82661425247592117875]; StrE false 36 [2712711448662477; 79119111862430554125]; StrE false 36 [1627626869197486; 67471467117458332475]; StrE false 35 [944425467312121; 89767394500253600325]; StrE false 35 [529799652394604; 96698782280630068475]; StrE false 35 [287240775394665; 34354761477450037125]; StrE false 35 [150459453778158; 3709636964378590875]; StrE false 34 [76114782499538; 77170757523156228325]; StrE false 34 [37172335639309; 63269439720611181275]; StrE false 34 [17517997255306; 83839621017759292325]; StrE false 33 [7962726025139; 47199827735345132875]; StrE false 33 [3489284437982; 46525767209870339125]; StrE false 33 [1473253429370; 37421990599723032075]; StrE false 32 [599015130623; 11918831342744529525]; StrE false 32 [234397225026; 43794325308030468075]; StrE false 31 [88214009418; 55191412750334047125]; StrE false 31 [31907194896; 7196893973525080875]; StrE false 31 [11083551911; 26710500011856080725]; StrE false 30 [3694517303; 75570166670618693575]; StrE false 30 [1180722024; 91161599657620407225]; StrE false 29 [361445517; 83008652956414410375]; StrE false 29 [105877979; 97042938744808261625]; StrE false 28 [29645834; 39172022848546313255]; StrE false 27 [7925124; 4531134820898519385]; StrE false 27 [2020129; 65860877503366289255]; StrE false 26 [490322; 73267203277516089625]; StrE false 26 [113151; 39984739217888328375]; StrE false 25 [24785; 54472847638204110025]; StrE false 24 [5144; 16966062717363117175]; StrE false 24 [1009; 60339133804342294025]; StrE false 23 [186; 96359098852655980375]; StrE false 22 [32; 58998375029362051625]; StrE false 21 [5; 33290643186622881175]; StrE false 20 [81675143551104405225]; StrE false 20 [11667877650157772175]; IntE 1548833316392624625; IntE 190207600258743375; IntE 21501728724901425; IntE 2224316764644975; IntE 209123798385425; IntE 17722355795375; IntE 1340346236625; IntE 89356415775; IntE 5169379425; IntE 254231775; IntE 10334625; IntE 333375; IntE 8001; IntE 127; IntE 1];
[IntE 1; IntE 128; IntE 8128; IntE 341376; IntE 10668000; IntE 264566400; IntE 5423611200; IntE 94525795200; IntE 1429702652400; IntE 19062702032000; IntE 226846154180800; IntE 2433440563030400; IntE 23726045489546400; IntE 211709328983644800; IntE 1739040916651368000; StrE false 20 [13216710966550396800]; StrE false 20 [93343021201262177400]; StrE false 21 [6; 14965786737727286400]; StrE false 22 [37; 92289018215984932800]; StrE false 23 [219; 55357473882018032000]; StrE false 24 [1196; 56698232656998274400]; StrE false 24 [6153; 77305196521705411200]; StrE false 25 [29929; 71438910355567227200]; StrE false 26 [137936; 94457586856092438400]; StrE false 26 [603474; 13251942495404418000]; StrE false 27 [2510452; 39128080780882378880]; StrE false 27 [9945253; 70392012324264808640]; StrE false 28 [37570958; 43703157669444832640]; StrE false 29 [135523814; 36214961593354574880]; StrE false 29 [467323497; 80051591701222672000]; StrE false 30 [1542167542; 74170252614034817600]; StrE false 30 [4875239328; 66731766328239100800]; StrE false 31 [14778069215; 2280666682474774300]; StrE false 31 [42990746807; 33907393985381161600]; StrE false 32 [120121204314; 62388306723859128000]; StrE false 32 [322611234444; 98985738058364515200]; StrE false 32 [833412355649; 55713156650774997600]; StrE false 33 [2072268559993; 49340821942467561600]; StrE false 33 [4962537867352; 83947757809593371200]; StrE false 34 [11452010463121; 93725594945215472000]; StrE false 34 [25480723280446; 31039448753104425200]; StrE false 34 [54690332894616; 47109060738370473600]; StrE false 35 [113287118138848; 40440197243767409600]; StrE false 35 [226574236277696; 80880394487534819200]; StrE false 35 [437700229172823; 38064398441828628000]; StrE false 35 [817040427789270; 31053543758080105600]; StrE false 36 [1474225119706726; 86466176780883668800]; StrE false 36 [2572052336509608; 57238861617711932800]; StrE false 36 [4340338317859964; 46590578979888886600]; StrE false 36 [7086266641404023; 61780537110022672000]; StrE false 37 [11196301293418357; 31613248633835821760]; StrE false 37 [17123754919345722; 95408497910572433280]; StrE false 37 [25356329399800397; 45124121906039949280]; StrE false 37 [36360019516694909; 55272325752057285760]; StrE false 37 [50500027106520707; 71211563544524008000]; StrE false 37 [67945491016046043; 10357376405359574400]; StrE false 37 [88571800788774306; 18858722814129445200]; StrE false 38 [111880169417399123; 60663649870479299200]; StrE false 38 [136956759114402375; 44950330013862590400]; StrE false 38 [162491070135731631; 88924120355430192000]; StrE false 38 [186864730656091376; 67262738408744720800]; StrE false 38 [208308224337937928; 9407642816305590400]; StrE false 38 [225107274687771631; 97263097882136686400]; StrE false 38 [235826668720522662; 6656578733667004800]; StrE false 38 [239511460419280828; 66135587776380551750]; StrE false 38 [235826668720522662; 6656578733667004800]; StrE false 38 [225107274687771631; 97263097882136686400]; StrE false 38 [208308224337937928; 9407642816305590400]; StrE false 38 [186864730656091376; 67262738408744720800]; StrE false 38 [162491070135731631; 88924120355430192000]; StrE false 38 [136956759114402375; 44950330013862590400]; StrE false 38 [111880169417399123; 60663649870479299200]; StrE false 37 [88571800788774306; 18858722814129445200]; StrE false 37 [67945491016046043; 10357376405359574400]; StrE false 37 [50500027106520707; 71211563544524008000]; StrE false 37 [36360019516694909; 55272325752057285760]; StrE false 37 [25356329399800397; 45124121906039949280]; StrE false 37 [17123754919345722; 95408497910572433280]; StrE false 37 [11196301293418357; 31613248633835821760]; StrE false 36 [7086266641404023; 61780537110022672000]; StrE false 36 [4340338317859964; 46590578979888886600]; StrE false 36 [2572052336509608; 57238861617711932800]; StrE false 36 [1474225119706726; 86466176780883668800]; StrE false 35 [817040427789270; 31053543758080105600]; StrE false 35 [437700229172823; 38064398441828628000]; StrE false 35 [226574236277696; 80880394487534819200]; StrE false 35 [113287118138848; 40440197243767409600]; StrE false 34 [54690332894616; 47109060738370473600]; StrE false 34 [25480723280446; 31039448753104425200]; StrE false 34 [11452010463121; 93725594945215472000]; StrE false 33 [4962537867352; 83947757809593371200]; StrE false 33 [2072268559993; 49340821942467561600]; StrE false 32 [833412355649; 55713156650774997600]; StrE false 32 [322611234444; 98985738058364515200]; StrE false 32 [120121204314; 62388306723859128000]; StrE false 31 [42990746807; 33907393985381161600]; StrE false 31 [14778069215; 2280666682474774300]; StrE false 30 [4875239328; 66731766328239100800]; StrE false 30 [1542167542; 74170252614034817600]; StrE false 29 [467323497; 80051591701222672000]; StrE false 29 [135523814; 36214961593354574880]; StrE false 28 [37570958; 43703157669444832640]; StrE false 27 [9945253; 70392012324264808640]; StrE false 27 [2510452; 39128080780882378880]; StrE false 26 [603474; 13251942495404418000]; StrE false 26 [137936; 94457586856092438400]; StrE false 25 [29929; 71438910355567227200]; StrE false 24 [6153; 77305196521705411200]; StrE false 24 [1196; 56698232656998274400]; StrE false 23 [219; 55357473882018032000]; StrE false 22 [37; 92289018215984932800]; StrE false 21 [6; 14965786737727286400]; StrE false 20 [93343021201262177400]; StrE false 20 [13216710966550396800]; IntE 1739040916651368000; IntE 211709328983644800; IntE 23726045489546400; IntE 2433440563030400; IntE 226846154180800; IntE 19062702032000; IntE 1429702652400; IntE 94525795200; IntE 5423611200; IntE 264566400; IntE 10668000; IntE 341376; IntE 8128; IntE 128; IntE 1];
[IntE 1; IntE 129; IntE 8256; IntE 349504; IntE 11009376; IntE 275234400; IntE 5688177600; IntE 99949406400; IntE 1524228447600; IntE 20492404684400; IntE 245908856212800; IntE 2660286717211200; IntE 26159486052576800; IntE 235435374473191200; IntE 1950750245635012800; StrE false 20 [14955751883201764800]; StrE false 21 [1; 6559732167812574200]; StrE false 21 [7; 8308807938989463800]; StrE false 22 [44; 7254804953712219200]; StrE false 23 [257; 47646492098002964800]; StrE false 24 [1416; 12055706539016306400]; StrE false 24 [7350; 34003429178703685600]; StrE false 25 [36083; 48744106877272638400]; StrE false 26 [167866; 65896497211659665600]; StrE false 26 [741411; 7709529351496856400]; StrE false 27 [3113926; 52380023276286796880]; StrE false 28 [12455706; 9520093105147187520]; StrE false 28 [47516212; 14095169993709641280]; StrE false 29 [173094772; 79918119262799407520]; StrE false 29 [602847312; 16266553294577246880]; StrE false 30 [2009491040; 54221844315257489600]; StrE false 30 [6417406871; 40902018942273918400]; StrE false 31 [19653308543; 69012433010713875100]; StrE false 31 [57768816022; 36188060667855935900]; StrE false 32 [163111951121; 96295700709240289600]; StrE false 32 [442732438759; 61374044782223643200]; StrE false 33 [1156023590094; 54698894709139512800]; StrE false 33 [2905680915643; 5053978593242559200]; StrE false 33 [7034806427346; 33288579752060932800]; StrE false 34 [16414548330474; 77673352754808843200]; StrE false 34 [36932733743568; 24765043698319897200]; StrE false 34 [80171056175062; 78148509491474898800]; StrE false 35 [167977451033464; 87549257982137883200]; StrE false 35 [339861354416545; 21320591731302228800]; StrE false 35 [664274465450520; 18944792929363447200]; StrE false 36 [1254740656962093; 69117942199908733600]; StrE false 36 [2291265547495997; 17519720538963774400]; StrE false 36 [4046277456216335; 43705038398595601600]; StrE false 36 [6912390654369573; 3829440597600819400]; StrE false 37 [11426604959263988; 8371116089911558600]; StrE false 37 [18282567934822380; 93393785743858493760]; StrE false 37 [28320056212764080; 27021746544408255040]; StrE false 37 [42480084319146120; 40532619816612382560]; StrE false 37 [61716348916495307; 396447658097235040]; StrE false 37 [86860046623215617; 26483889296581293760]; StrE false 38 [118445518122566750; 81568939949883582400]; StrE false 38 [156517291804820349; 29216099219489019600]; StrE false 38 [200451970206173429; 79522372684608744400]; StrE false 38 [248836928531801499; 5613979884341889600]; StrE false 38 [299447829250134007; 33874450369292782400]; StrE false 38 [349355800791823008; 56186858764174912800]; StrE false 38 [395172954994029304; 76670381225050311200]; StrE false 38 [433415499025709560; 6670740698442276800]; StrE false 38 [460933943408294294; 3919676615803691200]; StrE false 38 [475338129139803490; 72792166510047556550]; StrE false 38 [475338129139803490; 72792166510047556550]; StrE false 38 [460933943408294294; 3919676615803691200]; StrE false 38 [433415499025709560; 6670740698442276800]; StrE false 38 [395172954994029304; 76670381225050311200]; StrE false 38 [349355800791823008; 56186858764174912800]; StrE false 38 [299447829250134007; 33874450369292782400]; StrE false 38 [248836928531801499; 5613979884341889600]; StrE false 38 [200451970206173429; 79522372684608744400]; StrE false 38 [156517291804820349; 29216099219489019600]; StrE false 38 [118445518122566750; 81568939949883582400]; StrE false 37 [86860046623215617; 26483889296581293760]; StrE false 37 [61716348916495307; 396447658097235040]; StrE false 37 [42480084319146120; 40532619816612382560]; StrE false 37 [28320056212764080; 27021746544408255040]; StrE false 37 [18282567934822380; 93393785743858493760]; StrE false 37 [11426604959263988; 8371116089911558600]; StrE false 36 [6912390654369573; 3829440597600819400]; StrE false 36 [4046277456216335; 43705038398595601600]; StrE false 36 [2291265547495997; 17519720538963774400]; StrE false 36 [1254740656962093; 69117942199908733600]; StrE false 35 [664274465450520; 18944792929363447200]; StrE false 35 [339861354416545; 21320591731302228800]; StrE false 35 [167977451033464; 87549257982137883200]; StrE false 34 [80171056175062; 78148509491474898800]; StrE false 34 [36932733743568; 24765043698319897200]; StrE false 34 [16414548330474; 77673352754808843200]; StrE false 33 [7034806427346; 33288579752060932800]; StrE false 33 [2905680915643; 5053978593242559200]; StrE false 33 [1156023590094; 54698894709139512800]; StrE false 32 [442732438759; 61374044782223643200]; StrE false 32 [163111951121; 96295700709240289600]; StrE false 31 [57768816022; 36188060667855935900]; StrE false 31 [19653308543; 69012433010713875100]; StrE false 30 [6417406871; 40902018942273918400]; StrE false 30 [2009491040; 54221844315257489600]; StrE false 29 [602847312; 16266553294577246880]; StrE false 29 [173094772; 79918119262799407520]; StrE false 28 [47516212; 14095169993709641280]; StrE false 28 [12455706; 9520093105147187520]; StrE false 27 [3113926; 52380023276286796880]; StrE false 26 [741411; 7709529351496856400]; StrE false 26 [167866; 65896497211659665600]; StrE false 25 [36083; 48744106877272638400]; StrE false 24 [7350; 34003429178703685600]; StrE false 24 [1416; 12055706539016306400]; StrE false 23 [257; 47646492098002964800]; StrE false 22 [44; 7254804953712219200]; StrE false 21 [7; 8308807938989463800]; StrE false 21 [1; 6559732167812574200]; StrE false 20 [14955751883201764800]; IntE 1950750245635012800; IntE 235435374473191200; IntE 26159486052576800; IntE 2660286717211200; IntE 245908856212800; IntE 20492404684400; IntE 1524228447600; IntE 99949406400; IntE 5688177600; IntE 275234400; IntE 11009376; IntE 349504; IntE 8256; IntE 129; IntE 1];
[IntE 1; IntE 130; IntE 8385; IntE 357760; IntE 11358880; IntE 286243776; IntE 5963412000; IntE 105637584000; IntE 1624177854000; IntE 22016633132000; IntE 266401260897200; IntE 2906195573424000; IntE 28819772769788000; IntE 261594860525768000; IntE 2186185620108204000; StrE false 20 [16906502128836777600]; StrE false 21 [1; 21515484051014339000]; StrE false 21 [8; 14868540106802038000]; StrE false 22 [51; 15563612892701683000]; StrE false 23 [301; 54901297051715184000]; StrE false 24 [1673; 59702198637019271200]; StrE false 24 [8766; 46059135717719992000]; StrE false 25 [43433; 82747536055976324000]; StrE false 26 [203950; 14640604088932304000]; StrE false 26 [909277; 73606026563156522000]; StrE false 27 [3855337; 60089552627783653280]; StrE false 28 [15569632; 61900116381433984400]; StrE false 28 [59971918; 23615263098856828800]; StrE false 29 [220610984; 94013289256509048800]; StrE false 29 [775942084; 96184672557376654400]; StrE false 30 [2612338352; 70488397609834736480]; StrE false 30 [8426897911; 95123863257531408000]; StrE false 31 [26070715415; 9914451952987793500]; StrE false 31 [77422124566; 5200493678569811000]; StrE false 32 [220880767144; 32483761377096225500]; StrE false 32 [605844389881; 57669745491463932800]; StrE false 33 [1598756028854; 16072939491363156000]; StrE false 33 [4061704505737; 59752873302382072000]; StrE false 33 [9940487342989; 38342558345303492000]; StrE false 34 [23449354757821; 10961932506869776000]; StrE false 34 [53347282074043; 2438396453128740400]; StrE false 35 [117103789918631; 2913553189794796000]; StrE false 35 [248148507208527; 65697767473612782000]; StrE false 35 [507838805450010; 8869849713440112000]; StrE false 36 [1004135819867065; 40265384660665676000]; StrE false 36 [1919015122412613; 88062735129272180800]; StrE false 36 [3546006204458090; 86637662738872508000]; StrE false 36 [6337543003712332; 61224758937559376000]; StrE false 37 [10958668110585908; 47534478996196421000]; StrE false 37 [18338995613633561; 12200556687512378000]; StrE false 37 [29709172894086369; 1764901833770052360]; StrE false 37 [46602624147586461; 20415532288266748800]; StrE false 37 [70800140531910200; 67554366361020637600]; StrE false 38 [104196433235641427; 40929067474709617600]; StrE false 38 [148576395539710924; 26880336954678528800]; StrE false 38 [205305564745782368; 8052829246464876160]; StrE false 38 [274962809927387100; 10785039169372602000]; StrE false 38 [356969262010993779; 8738471904097764000]; StrE false 38 [449288898737974928; 85136352568950634000]; StrE false 38 [548284757781935506; 39488430253634672000]; StrE false 38 [648803630041957015; 90061309133467695200]; StrE false 38 [744528755785852313; 32857239989225224000]; StrE false 38 [828588454019738864; 83341121923492588000]; StrE false 38 [894349442434003854; 10590417314245968000]; StrE false 38 [936272072548097784; 76711843125851247750]; StrE false 38 [950676258279606981; 45584333020095113100]; StrE false 38 [936272072548097784; 76711843125851247750]; StrE false 38 [894349442434003854; 10590417314245968000]; StrE false 38 [828588454019738864; 83341121923492588000]; StrE false 38 [744528755785852313; 32857239989225224000]; StrE false 38 [648803630041957015; 90061309133467695200]; StrE false 38 [548284757781935506; 39488430253634672000]; StrE false 38 [449288898737974928; 85136352568950634000]; StrE false 38 [356969262010993779; 8738471904097764000]; StrE false 38 [274962809927387100; 10785039169372602000]; StrE false 38 [205305564745782368; 8052829246464876160]; StrE false 38 [148576395539710924; 26880336954678528800]; StrE false 38 [104196433235641427; 40929067474709617600]; StrE false 37 [70800140531910200; 67554366361020637600]; StrE false 37 [46602624147586461; 20415532288266748800]; StrE false 37 [29709172894086369; 1764901833770052360]; StrE false 37 [18338995613633561; 12200556687512378000]; StrE false 37 [10958668110585908; 47534478996196421000]; StrE false 36 [6337543003712332; 61224758937559376000]; StrE false 36 [3546006204458090; 86637662738872508000]; StrE false 36 [1919015122412613; 88062735129272180800]; StrE false 36 [1004135819867065; 40265384660665676000]; StrE false 35 [507838805450010; 8869849713440112000]; StrE false 35 [248148507208527; 65697767473612782000]; StrE false 35 [117103789918631; 2913553189794796000]; StrE false 34 [53347282074043; 2438396453128740400]; StrE false 34 [23449354757821; 10961932506869776000]; StrE false 33 [9940487342989; 38342558345303492000]; StrE false 33 [4061704505737; 59752873302382072000]; StrE false 33 [1598756028854; 16072939491363156000]; StrE false 32 [605844389881; 57669745491463932800]; StrE false 32 [220880767144; 32483761377096225500]; StrE false 31 [77422124566; 5200493678569811000]; StrE false 31 [26070715415; 9914451952987793500]; StrE false 30 [8426897911; 95123863257531408000]; StrE false 30 [2612338352; 70488397609834736480]; StrE false 29 [775942084; 96184672557376654400]; StrE false 29 [220610984; 94013289256509048800]; StrE false 28 [59971918; 23615263098856828800]; StrE false 28 [15569632; 61900116381433984400]; StrE false 27 [3855337; 60089552627783653280]; StrE false 26 [909277; 73606026563156522000]; StrE false 26 [203950; 14640604088932304000]; StrE false 25 [43433; 82747536055976324000]; StrE false 24 [8766; 46059135717719992000]; StrE false 24 [1673; 59702198637019271200]; StrE false 23 [301; 54901297051715184000]; StrE false 22 [51; 15563612892701683000]; StrE false 21 [8; 14868540106802038000]; StrE false 21 [1; 21515484051014339000]; StrE false 20 [16906502128836777600]; IntE 2186185620108204000; IntE 261594860525768000; IntE 28819772769788000; IntE 2906195573424000; IntE 266401260897200; IntE 22016633132000; IntE 1624177854000; IntE 105637584000; IntE 5963412000; IntE 286243776; IntE 11358880; IntE 357760; IntE 8385; IntE 130; IntE 1];
[IntE 1; IntE 131; IntE 8515; IntE 366145; IntE 11716640; IntE 297602656; IntE 6249655776; IntE 111600996000; IntE 1729815438000; IntE 23640810986000; IntE 288417894029200; IntE 3172596834321200; IntE 31725968343212000; IntE 290414633295556000; IntE 2447780480633972000; StrE false 20 [19092687748944981600]; StrE false 21 [1; 38421986179851116600]; StrE false 21 [9; 36384024157816377000]; StrE false 22 [59; 30432152999503721000]; StrE false 23 [352; 70464909944416867000]; StrE false 24 [1975; 14603495688734455200]; StrE false 25 [10440; 5761334354739263200]; StrE false 25 [52200; 28806671773696316000]; StrE false 26 [247383; 97388140144908628000]; StrE false 27 [1113227; 88246630652088826000]; StrE false 27 [4764615; 33695579190940175280]; StrE false 28 [19424970; 21989669009217637680]; StrE false 28 [75541550; 85515379480290813200]; StrE false 29 [280582903; 17628552355365877600]; StrE false 29 [996553069; 90197961813885703200]; StrE false 30 [3388280437; 66673070167211390880]; StrE false 31 [11039236264; 65612260867366144480]; StrE false 31 [34497613327; 5038315210519201500]; StrE false 32 [103492839981; 15114945631557604500]; StrE false 32 [298302891710; 37684255055666036500]; StrE false 32 [826725157025; 90153506868560158300]; StrE false 33 [2204600418735; 73742684982827088800]; StrE false 33 [5660460534591; 75825812793745228000]; StrE false 34 [14002191848726; 98095431647685564000]; StrE false 34 [33389842100810; 49304490852173268000]; StrE false 34 [76796636831864; 13400328959998516400]; StrE false 35 [170451071992674; 5351949642923536400]; StrE false 35 [365252297127158; 68611320663407578000]; StrE false 35 [755987312658537; 74567617187052894000]; StrE false 36 [1511974625317075; 49135234374105788000]; StrE false 36 [2923150942279679; 28328119789937856800]; StrE false 36 [5465021326870704; 74700397868144688800]; StrE false 36 [9883549208170423; 47862421676431884000]; StrE false 37 [17296211114298241; 8759237933755797000]; StrE false 37 [29297663724219469; 59735035683708799000]; StrE false 37 [48048168507719930; 13965458521282430360]; StrE false 37 [76311797041672830; 22180434122036801160]; StrE false 38 [117402764679496661; 87969898649287386400]; StrE false 38 [174996573767551628; 8483433835730255200]; StrE false 38 [252772828775352351; 67809404429388146400]; StrE false 38 [353881960285493292; 34933166201143404960]; StrE false 38 [480268374673169468; 18837868415837478160]; StrE false 38 [631932071938380879; 19523511073470366000]; StrE false 38 [806258160748968707; 93874824473048398000]; StrE false 38 [997573656519910435; 24624782822585306000]; StrE false 39 [1197088387823892522; 29549739387102367200]; StrE false 39 [1393332385827809329; 22918549122692919200]; StrE false 39 [1573117209805591178; 16198361912717812000]; StrE false 39 [1722937896453742718; 93931539237738556000]; StrE false 39 [1830621514982101638; 87302260440097215750]; StrE false 39 [1886948330827704766; 22296176145946360850]; StrE false 39 [1886948330827704766; 22296176145946360850]; StrE false 39 [1830621514982101638; 87302260440097215750]; StrE false 39 [1722937896453742718; 93931539237738556000]; StrE false 39 [1573117209805591178; 16198361912717812000]; StrE false 39 [1393332385827809329; 22918549122692919200]; StrE false 39 [1197088387823892522; 29549739387102367200]; StrE false 38 [997573656519910435; 24624782822585306000]; StrE false 38 [806258160748968707; 93874824473048398000]; StrE false 38 [631932071938380879; 19523511073470366000]; StrE false 38 [480268374673169468; 18837868415837478160]; StrE false 38 [353881960285493292; 34933166201143404960]; StrE false 38 [252772828775352351; 67809404429388146400]; StrE false 38 [174996573767551628; 8483433835730255200]; StrE false 38 [117402764679496661; 87969898649287386400]; StrE false 37 [76311797041672830; 22180434122036801160]; StrE false 37 [48048168507719930; 13965458521282430360]; StrE false 37 [29297663724219469; 59735035683708799000]; StrE false 37 [17296211114298241; 8759237933755797000]; StrE false 36 [9883549208170423; 47862421676431884000]; StrE false 36 [5465021326870704; 74700397868144688800]; StrE false 36 [2923150942279679; 28328119789937856800]; StrE false 36 [1511974625317075; 49135234374105788000]; StrE false 35 [755987312658537; 74567617187052894000]; StrE false 35 [365252297127158; 68611320663407578000]; StrE false 35 [170451071992674; 5351949642923536400]; StrE false 34 [76796636831864; 13400328959998516400]; StrE false 34 [33389842100810; 49304490852173268000]; StrE false 34 [14002191848726; 98095431647685564000]; StrE false 33 [5660460534591; 75825812793745228000]; StrE false 33 [2204600418735; 73742684982827088800]; StrE false 32 [826725157025; 90153506868560158300]; StrE false 32 [298302891710; 37684255055666036500]; StrE false 32 [103492839981; 15114945631557604500]; StrE false 31 [34497613327; 5038315210519201500]; StrE false 31 [11039236264; 65612260867366144480]; StrE false 30 [3388280437; 66673070167211390880]; StrE false 29 [996553069; 90197961813885703200]; StrE false 29 [280582903; 17628552355365877600]; StrE false 28 [75541550; 85515379480290813200]; StrE false 28 [19424970; 21989669009217637680]; StrE false 27 [4764615; 33695579190940175280]; StrE false 27 [1113227; 88246630652088826000]; StrE false 26 [247383; 97388140144908628000]; StrE false 25 [52200; 28806671773696316000]; StrE false 25 [10440; 5761334354739263200]; StrE false 24 [1975; 14603495688734455200]; StrE false 23 [352; 70464909944416867000]; StrE false 22 [59; 30432152999503721000]; StrE false 21 [9; 36384024157816377000]; StrE false 21 [1; 38421986179851116600]; StrE false 20 [19092687748944981600]; IntE 2447780480633972000; IntE 290414633295556000; IntE 31725968343212000; IntE 3172596834321200; IntE 288417894029200; IntE 23640810986000; IntE 1729815438000; IntE 111600996000; IntE 6249655776; IntE 297602656; IntE 11716640; IntE 366145; IntE 8515; IntE 131; IntE 1];
[IntE 1; IntE 132; IntE 8646; IntE 374660; IntE 12082785; IntE 309319296; IntE 6547258432; IntE 117850651776; IntE 1841416434000; IntE 25370626424000; IntE 312058705015200; IntE 3461014728350400; IntE 34898565177533200; IntE 322140601638768000; IntE 2738195113929528000; StrE false 20 [21540468229578953600]; StrE false 21 [1; 57514673928796098200]; StrE false 22 [10; 74806010337667493600]; StrE false 22 [68; 66816177157320098000]; StrE false 23 [412; 897062943920588000]; StrE false 24 [2327; 85068405633151322200]; StrE false 25 [12415; 20364830043473718400]; StrE false 25 [62640; 34568006128435579200]; StrE false 26 [299584; 26194811918604944000]; StrE false 27 [1360611; 85634770796997454000]; StrE false 27 [5877843; 21942209843029001280]; StrE false 28 [24189585; 55685248200157812960]; StrE false 28 [94966521; 7505048489508450880]; StrE false 29 [356124454; 3143931835656690800]; StrE false 30 [1277135973; 7826514169251580800]; StrE false 30 [4384833507; 56871031981097094080]; StrE false 31 [14427516702; 32285331034577535360]; StrE false 31 [45536849591; 70650576077885345980]; StrE false 32 [137990453308; 20153260842076806000]; StrE false 32 [401795731691; 52799200687223641000]; StrE false 33 [1125028048736; 27837761924226194800]; StrE false 33 [3031325575761; 63896191851387247100]; StrE false 33 [7865060953327; 49568497776572316800]; StrE false 34 [19662652383318; 73921244441430792000]; StrE false 34 [47392033949537; 47399922499858832000]; StrE false 35 [110186478932674; 62704819812171784400]; StrE false 35 [247247708824538; 18752278602922052800]; StrE false 35 [535703369119832; 73963270306331114400]; StrE false 36 [1121239609785696; 43178937850460472000]; StrE false 36 [2267961937975613; 23702851561158682000]; StrE false 36 [4435125567596754; 77463354164043644800]; StrE false 36 [8388172269150384; 3028517658082545600]; StrE false 37 [15348570535041128; 22562819544576572800]; StrE false 37 [27179760322468664; 56621659610187681000]; StrE false 37 [46593874838517710; 68494273617464596000]; StrE false 37 [77345832231939399; 73700494204991229360]; StrE false 38 [124359965549392760; 36145892643319231520]; StrE false 38 [193714561721169492; 10150332771324187560]; StrE false 38 [292399338447048289; 96453332485017641600]; StrE false 38 [427769402542903979; 76292838265118401600]; StrE false 38 [606654789060845644; 2742570630531551360]; StrE false 38 [834150334958662760; 53771034616980883120]; StrE false 39 [1112200446611550347; 38361379489307844160]; StrE false 39 [1438190232687349587; 13398335546518764000]; StrE false 39 [1803831817268879143; 18499607295633704000]; StrE false 39 [2194662044343802957; 54174522209687673200]; StrE false 39 [2590420773651701851; 52468288509795286400]; StrE false 39 [2966449595633400507; 39116911035410731200]; StrE false 39 [3296055106259333897; 10129901150456368000]; StrE false 39 [3553559411435844357; 81233799677835771750]; StrE false 39 [3717569845809806405; 9598436586043576600]; StrE false 39 [3773896661655409532; 44592352291892721700]; StrE false 39 [3717569845809806405; 9598436586043576600]; StrE false 39 [3553559411435844357; 81233799677835771750]; StrE false 39 [3296055106259333897; 10129901150456368000]; StrE false 39 [2966449595633400507; 39116911035410731200]; StrE false 39 [2590420773651701851; 52468288509795286400]; StrE false 39 [2194662044343802957; 54174522209687673200]; StrE false 39 [1803831817268879143; 18499607295633704000]; StrE false 39 [1438190232687349587; 13398335546518764000]; StrE false 39 [1112200446611550347; 38361379489307844160]; StrE false 38 [834150334958662760; 53771034616980883120]; StrE false 38 [606654789060845644; 2742570630531551360]; StrE false 38 [427769402542903979; 76292838265118401600]; StrE false 38 [292399338447048289; 96453332485017641600]; StrE false 38 [193714561721169492; 10150332771324187560]; StrE false 38 [124359965549392760; 36145892643319231520]; StrE false 37 [77345832231939399; 73700494204991229360]; StrE false 37 [46593874838517710; 68494273617464596000]; StrE false 37 [27179760322468664; 56621659610187681000]; StrE false 37 [15348570535041128; 22562819544576572800]; StrE false 36 [8388172269150384; 3028517658082545600]; StrE false 36 [4435125567596754; 77463354164043644800]; StrE false 36 [2267961937975613; 23702851561158682000]; StrE false 36 [1121239609785696; 43178937850460472000]; StrE false 35 [535703369119832; 73963270306331114400]; StrE false 35 [247247708824538; 18752278602922052800]; StrE false 35 [110186478932674; 62704819812171784400]; StrE false 34 [47392033949537; 47399922499858832000]; StrE false 34 [19662652383318; 73921244441430792000]; StrE false 33 [7865060953327; 49568497776572316800]; StrE false 33 [3031325575761; 63896191851387247100]; StrE false 33 [1125028048736; 27837761924226194800]; StrE false 32 [401795731691; 52799200687223641000]; StrE false 32 [137990453308; 20153260842076806000]; StrE false 31 [45536849591; 70650576077885345980]; StrE false 31 [14427516702; 32285331034577535360]; StrE false 30 [4384833507; 56871031981097094080]; StrE false 30 [1277135973; 7826514169251580800]; StrE false 29 [356124454; 3143931835656690800]; StrE false 28 [94966521; 7505048489508450880]; StrE false 28 [24189585; 55685248200157812960]; StrE false 27 [5877843; 21942209843029001280]; StrE false 27 [1360611; 85634770796997454000]; StrE false 26 [299584; 26194811918604944000]; StrE false 25 [62640; 34568006128435579200]; StrE false 25 [12415; 20364830043473718400]; StrE false 24 [2327; 85068405633151322200]; StrE false 23 [412; 897062943920588000]; StrE false 22 [68; 66816177157320098000]; StrE false 22 [10; 74806010337667493600]; StrE false 21 [1; 57514673928796098200]; StrE false 20 [21540468229578953600]; IntE 2738195113929528000; IntE 322140601638768000; IntE 34898565177533200; IntE 3461014728350400; IntE 312058705015200; IntE 25370626424000; IntE 1841416434000; IntE 117850651776; IntE 6547258432; IntE 309319296; IntE 12082785; IntE 374660; IntE 8646; IntE 132; IntE 1];
[IntE 1; IntE 133; IntE 8778; IntE 383306; IntE 12457445; IntE 321402081; IntE 6856577728; IntE 124397910208; IntE 1959267085776; IntE 27212042858000; IntE 337429331439200; IntE 3773073433365600; IntE 38359579905883600; IntE 357039166816301200; IntE 3060335715568296000; StrE false 20 [24278663343508481600]; StrE false 21 [1; 79055142158375051800]; StrE false 22 [12; 32320684266463591800]; StrE false 22 [79; 41622187494987591600]; StrE false 23 [480; 67713240101240686000]; StrE false 24 [2739; 85965468577071910200]; StrE false 25 [14743; 5433235676625040600]; StrE false 25 [75055; 54932836171909297600]; StrE false 26 [362224; 60762818047040523200]; StrE false 27 [1660196; 11829582715602398000]; StrE false 27 [7238455; 7576980640026455280]; StrE false 28 [30067428; 77627458043186814240]; StrE false 29 [119156106; 63190296689666263840]; StrE false 29 [451090975; 10648980325165141680]; StrE false 30 [1633260427; 10970446004908271600]; StrE false 30 [5661969480; 64697546150348674880]; StrE false 31 [18812350209; 89156363015674629440]; StrE false 31 [59964366294; 2935907112462881340]; StrE false 32 [183527302899; 90803836919962151980]; StrE false 32 [539786184999; 72952461529300447000]; StrE false 33 [1526823780427; 80636962611449835800]; StrE false 33 [4156353624497; 91733953775613441900]; StrE false 34 [10896386529089; 13464689627959563900]; StrE false 34 [27527713336646; 23489742218003108800]; StrE false 34 [67054686332856; 21321166941289624000]; StrE false 35 [157578512882212; 10104742312030616400]; StrE false 35 [357434187757212; 81457098415093837200]; StrE false 35 [782951077944370; 92715548909253167200]; StrE false 36 [1656942978905529; 17142208156791586400]; StrE false 36 [3389201547761309; 66881789411619154000]; StrE false 36 [6703087505572368; 1166205725202326800]; StrE false 37 [12823297836747138; 80491871822126190400]; StrE false 37 [23736742804191512; 25591337202659118400]; StrE false 37 [42528330857509792; 79184479154764253800]; StrE false 37 [73773635160986375; 25115933227652277000]; StrE false 38 [123939707070457110; 42194767822455825360]; StrE false 38 [201705797781332160; 9846386848310460880]; StrE false 38 [318074527270562252; 46296225414643419080]; StrE false 38 [486113900168217782; 6603665256341829160]; StrE false 38 [720168740989952269; 72746170750136043200]; StrE false 39 [1034424191603749623; 79035408895649952960]; StrE false 39 [1440805124019508404; 56513605247512434480]; StrE false 39 [1946350781570213107; 92132414106288727280]; StrE false 39 [2550390679298899934; 51759715035826608160]; StrE false 39 [3242022049956228730; 31897942842152468000]; StrE false 39 [3998493861612682100; 72674129505321377200]; StrE false 39 [4785082817995504809; 6642810719482959600]; StrE false 39 [5556870369285102358; 91585199545206017600]; StrE false 39 [6262504701892734404; 49246812185867099200]; StrE false 39 [6849614517695178254; 91363700828292139750]; StrE false 39 [7271129257245650762; 90832236263879348350]; StrE false 39 [7491466507465215937; 54190788877936298300]; StrE false 39 [7491466507465215937; 54190788877936298300]; StrE false 39 [7271129257245650762; 90832236263879348350]; StrE false 39 [6849614517695178254; 91363700828292139750]; StrE false 39 [6262504701892734404; 49246812185867099200]; StrE false 39 [5556870369285102358; 91585199545206017600]; StrE false 39 [4785082817995504809; 6642810719482959600]; StrE false 39 [3998493861612682100; 72674129505321377200]; StrE false 39 [3242022049956228730; 31897942842152468000]; StrE false 39 [2550390679298899934; 51759715035826608160]; StrE false 39 [1946350781570213107; 92132414106288727280]; StrE false 39 [1440805124019508404; 56513605247512434480]; StrE false 39 [1034424191603749623; 79035408895649952960]; StrE false 38 [720168740989952269; 72746170750136043200]; StrE false 38 [486113900168217782; 6603665256341829160]; StrE false 38 [318074527270562252; 46296225414643419080]; StrE false 38 [201705797781332160; 9846386848310460880]; StrE false 38 [123939707070457110; 42194767822455825360]; StrE false 37 [73773635160986375; 25115933227652277000]; StrE false 37 [42528330857509792; 79184479154764253800]; StrE false 37 [23736742804191512; 25591337202659118400]; StrE false 37 [12823297836747138; 80491871822126190400]; StrE false 36 [6703087505572368; 1166205725202326800]; StrE false 36 [3389201547761309; 66881789411619154000]; StrE false 36 [1656942978905529; 17142208156791586400]; StrE false 35 [782951077944370; 92715548909253167200]; StrE false 35 [357434187757212; 81457098415093837200]; StrE false 35 [157578512882212; 10104742312030616400]; StrE false 34 [67054686332856; 21321166941289624000]; StrE false 34 [27527713336646; 23489742218003108800]; StrE false 34 [10896386529089; 13464689627959563900]; StrE false 33 [4156353624497; 91733953775613441900]; StrE false 33 [1526823780427; 80636962611449835800]; StrE false 32 [539786184999; 72952461529300447000]; StrE false 32 [183527302899; 90803836919962151980]; StrE false 31 [59964366294; 2935907112462881340]; StrE false 31 [18812350209; 89156363015674629440]; StrE false 30 [5661969480; 64697546150348674880]; StrE false 30 [1633260427; 10970446004908271600]; StrE false 29 [451090975; 10648980325165141680]; StrE false 29 [119156106; 63190296689666263840]; StrE false 28 [30067428; 77627458043186814240]; StrE false 27 [7238455; 7576980640026455280]; StrE false 27 [1660196; 11829582715602398000]; StrE false 26 [362224; 60762818047040523200]; StrE false 25 [75055; 54932836171909297600]; StrE false 25 [14743; 5433235676625040600]; StrE false 24 [2739; 85965468577071910200]; StrE false 23 [480; 67713240101240686000]; StrE false 22 [79; 41622187494987591600]; StrE false 22 [12; 32320684266463591800]; StrE false 21 [1; 79055142158375051800]; StrE false 20 [24278663343508481600]; IntE 3060335715568296000; IntE 357039166816301200; IntE 38359579905883600; IntE 3773073433365600; IntE 337429331439200; IntE 27212042858000; IntE 1959267085776; IntE 124397910208; IntE 6856577728; IntE 321402081; IntE 12457445; IntE 383306; IntE 8778; IntE 133; IntE 1];
[IntE 1; IntE 134; IntE 8911; IntE 392084; IntE 12840751; IntE 333859526; IntE 7177979809; IntE 131254487936; IntE 2083664995984; IntE 29171309943776; IntE 364641374297200; IntE 4110502764804800; IntE 42132653339249200; IntE 395398746722184800; IntE 3417374882384597200; StrE false 20 [27338999059076777600]; StrE false 21 [2; 3333805501883533400]; StrE false 22 [14; 11375826424838643600]; StrE false 22 [91; 73942871761451183400]; StrE false 23 [560; 9335427596228277600]; StrE false 24 [3220; 53678708678312596200]; StrE false 25 [17482; 91398704253696950800]; StrE false 25 [89798; 60366071848534338200]; StrE false 26 [437280; 15695654218949820800]; StrE false 27 [2022420; 72592400762642921200]; StrE false 27 [8898651; 19406563355628853280]; StrE false 28 [37305883; 85204438683213269520]; StrE false 29 [149223535; 40817754732853078080]; StrE false 29 [570247081; 73839277014831405520]; StrE false 30 [2084351402; 21619426330073413280]; StrE false 30 [7295229907; 75667992155256946480]; StrE false 31 [24474319690; 53853909166023304320]; StrE false 31 [78776716503; 92092270128137510780]; StrE false 32 [243491669193; 93739744032425033320]; StrE false 32 [723313487899; 63756298449262598980]; StrE false 33 [2066609965427; 53589424140750282800]; StrE false 33 [5683177404925; 72370916387063277700]; StrE false 34 [15052740153587; 5198643403573005800]; StrE false 34 [38424099865735; 36954431845962672700]; StrE false 34 [94582399669502; 44810909159292732800]; StrE false 35 [224633199215068; 31425909253320240400]; StrE false 35 [515012700639424; 91561840727124453600]; StrE false 36 [1140385265701583; 74172647324347004400]; StrE false 36 [2439894056849900; 9857757066044753600]; StrE false 36 [5046144526666838; 84023997568410740400]; StrE false 37 [10092289053333677; 68047995136821480800]; StrE false 37 [19526385342319506; 81658077547328517200]; StrE false 37 [36560040640938651; 6083209024785308800]; StrE false 37 [66265073661701305; 4775816357423372200]; StrE false 38 [116301966018496168; 4300412382416530800]; StrE false 38 [197713342231443485; 67310701050108102360]; StrE false 38 [325645504851789270; 52041154670766286240]; StrE false 38 [519780325051894412; 56142612262953879960]; StrE false 38 [804188427438780034; 52899890670985248240]; StrE false 39 [1206282641158170051; 79349836006477872360]; StrE false 39 [1754592932593701893; 51781579645785996160]; StrE false 39 [2475229315623258028; 35549014143162387440]; StrE false 39 [3387155905589721512; 48646019353801161760]; StrE false 39 [4496741460869113042; 43892129142115335440]; StrE false 39 [5792412729255128664; 83657657877979076160]; StrE false 39 [7240515911568910831; 4572072347473845200]; StrE false 39 [8783576679608186909; 79316940224804336800]; StrE false 40 [10341953187280607167; 98228010264688977200]; StrE false 40 [11819375071177836763; 40832011731073116800]; StrE false 40 [13112119219587912659; 40610513014159238950]; StrE false 40 [14120743774940829017; 82195937092171488100]; StrE false 40 [14762595764710866700; 45023025141815646650]; StrE false 40 [14982933014930431875; 8381577755872596600]; StrE false 40 [14762595764710866700; 45023025141815646650]; StrE false 40 [14120743774940829017; 82195937092171488100]; StrE false 40 [13112119219587912659; 40610513014159238950]; StrE false 40 [11819375071177836763; 40832011731073116800]; StrE false 40 [10341953187280607167; 98228010264688977200]; StrE false 39 [8783576679608186909; 79316940224804336800]; StrE false 39 [7240515911568910831; 4572072347473845200]; StrE false 39 [5792412729255128664; 83657657877979076160]; StrE false 39 [4496741460869113042; 43892129142115335440]; StrE false 39 [3387155905589721512; 48646019353801161760]; StrE false 39 [2475229315623258028; 35549014143162387440]; StrE false 39 [1754592932593701893; 51781579645785996160]; StrE false 39 [1206282641158170051; 79349836006477872360]; StrE false 38 [804188427438780034; 52899890670985248240]; StrE false 38 [519780325051894412; 56142612262953879960]; StrE false 38 [325645504851789270; 52041154670766286240]; StrE false 38 [197713342231443485; 67310701050108102360]; StrE false 38 [116301966018496168; 4300412382416530800]; StrE false 37 [66265073661701305; 4775816357423372200]; StrE false 37 [36560040640938651; 6083209024785308800]; StrE false 37 [19526385342319506; 81658077547328517200]; StrE false 37 [10092289053333677; 68047995136821480800]; StrE false 36 [5046144526666838; 84023997568410740400]; StrE false 36 [2439894056849900; 9857757066044753600]; StrE false 36 [1140385265701583; 74172647324347004400]; StrE false 35 [515012700639424; 91561840727124453600]; StrE false 35 [224633199215068; 31425909253320240400]; StrE false 34 [94582399669502; 44810909159292732800]; StrE false 34 [38424099865735; 36954431845962672700]; StrE false 34 [15052740153587; 5198643403573005800]; StrE false 33 [5683177404925; 72370916387063277700]; StrE false 33 [2066609965427; 53589424140750282800]; StrE false 32 [723313487899; 63756298449262598980]; StrE false 32 [243491669193; 93739744032425033320]; StrE false 31 [78776716503; 92092270128137510780]; StrE false 31 [24474319690; 53853909166023304320]; StrE false 30 [7295229907; 75667992155256946480]; StrE false 30 [2084351402; 21619426330073413280]; StrE false 29 [570247081; 73839277014831405520]; StrE false 29 [149223535; 40817754732853078080]; StrE false 28 [37305883; 85204438683213269520]; StrE false 27 [8898651; 19406563355628853280]; StrE false 27 [2022420; 72592400762642921200]; StrE false 26 [437280; 15695654218949820800]; StrE false 25 [89798; 60366071848534338200]; StrE false 25 [17482; 91398704253696950800]; StrE false 24 [3220; 53678708678312596200]; StrE false 23 [560; 9335427596228277600]; StrE false 22 [91; 73942871761451183400]; StrE false 22 [14; 11375826424838643600]; StrE false 21 [2; 3333805501883533400]; StrE false 20 [27338999059076777600]; IntE 3417374882384597200; IntE 395398746722184800; IntE 42132653339249200; IntE 4110502764804800; IntE 364641374297200; IntE 29171309943776; IntE 2083664995984; IntE 131254487936; IntE 7177979809; IntE 333859526; IntE 12840751; IntE 392084; IntE 8911; IntE 134; IntE 1];
[IntE 1; IntE 135; IntE 9045; IntE 400995; IntE 13232835; IntE 346700277; IntE 7511839335; IntE 138432467745; IntE 2214919483920; IntE 31254974939760; IntE 393812684240976; IntE 4475144139102000; IntE 46243156104054000; IntE 437531400061434000; IntE 3812773629106782000; StrE false 20 [30756373941461374800]; StrE false 21 [2; 30672804560960311000]; StrE false 22 [16; 14709631926722177000]; StrE false 23 [105; 85318698186289827000]; StrE false 23 [651; 83278299357679461000]; StrE false 24 [3780; 63014136274540873800]; StrE false 25 [20703; 45077412932009547000]; StrE false 26 [107281; 51764776102231289000]; StrE false 26 [527078; 76061726067484159000]; StrE false 27 [2459700; 88288054981592742000]; StrE false 28 [10921071; 91998964118271774480]; StrE false 28 [46204535; 4611002038842122800]; StrE false 29 [186529419; 26022193416066347600]; StrE false 29 [719470617; 14657031747684483600]; StrE false 30 [2654598483; 95458703344904818800]; StrE false 30 [9379581309; 97287418485330359760]; StrE false 31 [31769549598; 29521901321280250800]; StrE false 32 [103251036194; 45946179294160815100]; StrE false 32 [322268385697; 85832014160562544100]; StrE false 32 [966805157093; 57496042481687632300]; StrE false 33 [2789923453327; 17345722590012881780]; StrE false 33 [7749787370353; 25960340527813560500]; StrE false 34 [20735917558512; 77569559790636283500]; StrE false 34 [53476840019322; 42153075249535678500]; StrE false 35 [133006499535237; 81765341005255405500]; StrE false 35 [319215598884570; 76236818412612973200]; StrE false 35 [739645899854493; 22987749980444694000]; StrE false 36 [1655397966341008; 65734488051471458000]; StrE false 36 [3580279322551483; 84030404390391758000]; StrE false 36 [7486038583516738; 93881754634455494000]; StrE false 37 [15138433580000516; 52071992705232221200]; StrE false 37 [29618674395653184; 49706072684149998000]; StrE false 37 [56086425983258157; 87741286572113826000]; StrE false 38 [102825114302639956; 10859025382208681000]; StrE false 38 [182567039680197473; 9076228739839903000]; StrE false 38 [314015308249939653; 71611113432524633160]; StrE false 38 [523358847083232756; 19351855720874388600]; StrE false 38 [845425829903683683; 8183766933720166200]; StrE false 39 [1323968752490674447; 9042502933939128200]; StrE false 39 [2010471068596950086; 32249726677463120600]; StrE false 39 [2960875573751871945; 31131415652263868520]; StrE false 39 [4229822248216959921; 87330593788948383600]; StrE false 39 [5862385221212979540; 84195033496963549200]; StrE false 39 [7883897366458834554; 92538148495916497200]; StrE false 40 [10289154190124241707; 27549787020094411600]; StrE false 40 [13032928640824039495; 88229730225452921360]; StrE false 40 [16024092591177097740; 83889012572278182000]; StrE false 40 [19125529866888794077; 77544950489493314000]; StrE false 40 [22161328258458443931; 39060021995762094000]; StrE false 40 [24931494290765749422; 81442524745232355750]; StrE false 40 [27232862994528741677; 22806450106330727050]; StrE false 40 [28883339539651695718; 27218962233987134750]; StrE false 40 [29745528779641298575; 53404602897688243250]; StrE false 40 [29745528779641298575; 53404602897688243250]; StrE false 40 [28883339539651695718; 27218962233987134750]; StrE false 40 [27232862994528741677; 22806450106330727050]; StrE false 40 [24931494290765749422; 81442524745232355750]; StrE false 40 [22161328258458443931; 39060021995762094000]; StrE false 40 [19125529866888794077; 77544950489493314000]; StrE false 40 [16024092591177097740; 83889012572278182000]; StrE false 40 [13032928640824039495; 88229730225452921360]; StrE false 40 [10289154190124241707; 27549787020094411600]; StrE false 39 [7883897366458834554; 92538148495916497200]; StrE false 39 [5862385221212979540; 84195033496963549200]; StrE false 39 [4229822248216959921; 87330593788948383600]; StrE false 39 [2960875573751871945; 31131415652263868520]; StrE false 39 [2010471068596950086; 32249726677463120600]; StrE false 39 [1323968752490674447; 9042502933939128200]; StrE false 38 [845425829903683683; 8183766933720166200]; StrE false 38 [523358847083232756; 19351855720874388600]; StrE false 38 [314015308249939653; 71611113432524633160]; StrE false 38 [182567039680197473; 9076228739839903000]; StrE false 38 [102825114302639956; 10859025382208681000]; StrE false 37 [56086425983258157; 87741286572113826000]; StrE false 37 [29618674395653184; 49706072684149998000]; StrE false 37 [15138433580000516; 52071992705232221200]; StrE false 36 [7486038583516738; 93881754634455494000]; StrE false 36 [3580279322551483; 84030404390391758000]; StrE false 36 [1655397966341008; 65734488051471458000]; StrE false 35 [739645899854493; 22987749980444694000]; StrE false 35 [319215598884570; 76236818412612973200]; StrE false 35 [133006499535237; 81765341005255405500]; StrE false 34 [53476840019322; 42153075249535678500]; StrE false 34 [20735917558512; 77569559790636283500]; StrE false 33 [7749787370353; 25960340527813560500]; StrE false 33 [2789923453327; 17345722590012881780]; StrE false 32 [966805157093; 57496042481687632300]; StrE false 32 [322268385697; 85832014160562544100]; StrE false 32 [103251036194; 45946179294160815100]; StrE false 31 [31769549598; 29521901321280250800]; StrE false 30 [9379581309; 97287418485330359760]; StrE false 30 [2654598483; 95458703344904818800]; StrE false 29 [719470617; 14657031747684483600]; StrE false 29 [186529419; 26022193416066347600]; StrE false 28 [46204535; 4611002038842122800]; StrE false 28 [10921071; 91998964118271774480]; StrE false 27 [2459700; 88288054981592742000]; StrE false 26 [527078; 76061726067484159000]; StrE false 26 [107281; 51764776102231289000]; StrE false 25 [20703; 45077412932009547000]; StrE false 24 [3780; 63014136274540873800]; StrE false 23 [651; 83278299357679461000]; StrE false 23 [105; 85318698186289827000]; StrE false 22 [16; 14709631926722177000]; StrE false 21 [2; 30672804560960311000]; StrE false 20 [30756373941461374800]; IntE 3812773629106782000; IntE 437531400061434000; IntE 46243156104054000; IntE 4475144139102000; IntE 393812684240976; IntE 31254974939760; IntE 2214919483920; IntE 138432467745; IntE 7511839335; IntE 346700277; IntE 13232835; IntE 400995; IntE 9045; IntE 135; IntE 1];
[IntE 1; IntE 136; IntE 9180; IntE 410040; IntE 13633830; IntE 359933112; IntE 7858539612; IntE 145944307080; IntE 2353351951665; IntE 33469894423680; IntE 425067659180736; IntE 4868956823342976; IntE 50718300243156000; IntE 483774556165488000; IntE 4250305029168216000; StrE false 20 [34569147570568156800]; StrE false 21 [2; 61429178502421685800]; StrE false 22 [18; 45382436487682488000]; StrE false 23 [122; 28330113012004000]; StrE false 23 [757; 68596997543969288000]; StrE false 24 [4432; 46292435632220334800]; StrE false 25 [24484; 8091549206550420800]; StrE false 26 [127984; 96842189034240836000]; StrE false 26 [634360; 27826502169715448000]; StrE false 27 [2986779; 64349781049076901000]; StrE false 28 [13380772; 80287019099864516480]; StrE false 28 [57125606; 96609966157113897280]; StrE false 29 [232733954; 30633195454908470400]; StrE false 29 [906000036; 40679225163750831200]; StrE false 30 [3374069101; 10115735092589302400]; StrE false 31 [12034179793; 92746121830235178560]; StrE false 31 [41149130908; 26809319806610610560]; StrE false 32 [135020585792; 75468080615441065900]; StrE false 32 [425519421892; 31778193454723359200]; StrE false 33 [1289073542791; 43328056642250176400]; StrE false 33 [3756728610420; 74841765071700514080]; StrE false 34 [10539710823680; 43306063117826442280]; StrE false 34 [28485704928866; 3529900318449844000]; StrE false 34 [74212757577835; 19722635040171962000]; StrE false 35 [186483339554560; 23918416254791084000]; StrE false 35 [452222098419808; 58002159417868378700]; StrE false 36 [1058861498739063; 99224568393057667200]; StrE false 36 [2395043866195501; 88722238031916152000]; StrE false 36 [5235677288892492; 49764892441863216000]; StrE false 37 [11066317906068222; 77912159024847252000]; StrE false 37 [22624472163517255; 45953747339687715200]; StrE false 37 [44757107975653701; 1778065389382219200]; StrE false 37 [85705100378911342; 37447359256263824000]; StrE false 38 [158911540285898113; 98600311954322507000]; StrE false 38 [285392153982837429; 19935254122048584000]; StrE false 38 [496582347930137126; 80687342172364536160]; StrE false 38 [837374155333172409; 90962969153399021760]; StrE false 39 [1368784676986916439; 27535622654594554800]; StrE false 39 [2169394582394358130; 17226269867659294400]; StrE false 39 [3334439821087624533; 41292229611402248800]; StrE false 39 [4971346642348822031; 63381142329726989120]; StrE false 39 [7190697821968831867; 18462009441212252120]; StrE false 40 [10092207469429939462; 71525627285911932800]; StrE false 40 [13746282587671814095; 76733181992880046400]; StrE false 40 [18173051556583076262; 20087935516010908800]; StrE false 40 [23322082830948281203; 15779517245547332960]; StrE false 40 [29057021232001137236; 72118742797731103360]; StrE false 40 [35149622458065891818; 61433963061771496000]; StrE false 40 [41286858125347238009; 16604972485255408000]; StrE false 40 [47092822549224193354; 20502546740994449750]; StrE false 40 [52164357285294491100; 4248974851563082800]; StrE false 40 [56116202534180437395; 50025412340317861800]; StrE false 40 [58628868319292994293; 80623565131675378000]; StrE false 40 [59491057559282597151; 6809205795376486500]; StrE false 40 [58628868319292994293; 80623565131675378000]; StrE false 40 [56116202534180437395; 50025412340317861800]; StrE false 40 [52164357285294491100; 4248974851563082800]; StrE false 40 [47092822549224193354; 20502546740994449750]; StrE false 40 [41286858125347238009; 16604972485255408000]; StrE false 40 [35149622458065891818; 61433963061771496000]; StrE false 40 [29057021232001137236; 72118742797731103360]; StrE false 40 [23322082830948281203; 15779517245547332960]; StrE false 40 [18173051556583076262; 20087935516010908800]; StrE false 40 [13746282587671814095; 76733181992880046400]; StrE false 40 [10092207469429939462; 71525627285911932800]; StrE false 39 [7190697821968831867; 18462009441212252120]; StrE false 39 [4971346642348822031; 63381142329726989120]; StrE false 39 [3334439821087624533; 41292229611402248800]; StrE false 39 [2169394582394358130; 17226269867659294400]; StrE false 39 [1368784676986916439; 27535622654594554800]; StrE false 38 [837374155333172409; 90962969153399021760]; StrE false 38 [496582347930137126; 80687342172364536160]; StrE false 38 [285392153982837429; 19935254122048584000]; StrE false 38 [158911540285898113; 98600311954322507000]; StrE false 37 [85705100378911342; 37447359256263824000]; StrE false 37 [44757107975653701; 1778065389382219200]; StrE false 37 [22624472163517255; 45953747339687715200]; StrE false 37 [11066317906068222; 77912159024847252000]; StrE false 36 [5235677288892492; 49764892441863216000]; StrE false 36 [2395043866195501; 88722238031916152000]; StrE false 36 [1058861498739063; 99224568393057667200]; StrE false 35 [452222098419808; 58002159417868378700]; StrE false 35 [186483339554560; 23918416254791084000]; StrE false 34 [74212757577835; 19722635040171962000]; StrE false 34 [28485704928866; 3529900318449844000]; StrE false 34 [10539710823680; 43306063117826442280]; StrE false 33 [3756728610420; 74841765071700514080]; StrE false 33 [1289073542791; 43328056642250176400]; StrE false 32 [425519421892; 31778193454723359200]; StrE false 32 [135020585792; 75468080615441065900]; StrE false 31 [41149130908; 26809319806610610560]; StrE false 31 [12034179793; 92746121830235178560]; StrE false 30 [3374069101; 10115735092589302400]; StrE false 29 [906000036; 40679225163750831200]; StrE false 29 [232733954; 30633195454908470400]; StrE false 28 [57125606; 96609966157113897280]; StrE false 28 [13380772; 80287019099864516480]; StrE false 27 [2986779; 64349781049076901000]; StrE false 26 [634360; 27826502169715448000]; StrE false 26 [127984; 96842189034240836000]; StrE false 25 [24484; 8091549206550420800]; StrE false 24 [4432; 46292435632220334800]; StrE false 23 [757; 68596997543969288000]; StrE false 23 [122; 28330113012004000]; StrE false 22 [18; 45382436487682488000]; StrE false 21 [2; 61429178502421685800]; StrE false 20 [34569147570568156800]; IntE 4250305029168216000; IntE 483774556165488000; IntE 50718300243156000; IntE 4868956823342976; IntE 425067659180736; IntE 33469894423680; IntE 2353351951665; IntE 145944307080; IntE 7858539612; IntE 359933112; IntE 13633830; IntE 410040; IntE 9180; IntE 136; IntE 1];
[IntE 1; IntE 137; IntE 9316; IntE 419220; IntE 14043870; IntE 373566942; IntE 8218472724; IntE 153802846692; IntE 2499296258745; IntE 35823246375345; IntE 458537553604416; IntE 5294024482523712; IntE 55587257066498976; IntE 534492856408644000; IntE 4734079585333704000; StrE false 20 [38819452599736372800]; StrE false 21 [2; 95998326072989842600]; StrE false 22 [21; 6811614990104173800]; StrE false 23 [140; 45410766600694492000]; StrE false 23 [879; 68625327656981292000]; StrE false 24 [5190; 14889433176189622800]; StrE false 25 [28916; 54383984838770755600]; StrE false 26 [152469; 4933738240791256800]; StrE false 26 [762345; 24668691203956284000]; StrE false 27 [3621139; 92176283218792349000]; StrE false 28 [16367552; 44636800148941417480]; StrE false 28 [70506379; 76896985256978413760]; StrE false 29 [289859561; 27243161612022367680]; StrE false 30 [1138733990; 71312420618659301600]; StrE false 30 [4280069137; 50794960256340133600]; StrE false 31 [15408248895; 2861856922824480960]; StrE false 31 [53183310702; 19555441636845789120]; StrE false 32 [176169716701; 2277400422051676460]; StrE false 32 [560540007685; 7246274070164425100]; StrE false 33 [1714592964683; 75106250096973535600]; StrE false 33 [5045802153212; 18169821713950690480]; StrE false 34 [14296439434101; 18147828189526956360]; StrE false 34 [39025415752546; 46835963436276286280]; StrE false 35 [102698462506701; 23252535358621806000]; StrE false 35 [260696097132395; 43641051294963046000]; StrE false 35 [638705437974368; 81920575672659462700]; StrE false 36 [1511083597158872; 57226727810926045900]; StrE false 36 [3453905364934565; 87946806424973819200]; StrE false 36 [7630721155087994; 38487130473779368000]; StrE false 37 [16301995194960715; 27677051466710468000]; StrE false 37 [33690790069585478; 23865906364534967200]; StrE false 37 [67381580139170956; 47731812729069934400]; StrE false 38 [130462208354565043; 39225424645646043200]; StrE false 38 [244616640664809456; 36047671210586331000]; StrE false 38 [444303694268735543; 18535566076371091000]; StrE false 38 [781974501912974556; 622596294413120160]; StrE false 39 [1333956503263309536; 71650311325763557920]; StrE false 39 [2206158832320088849; 18498591807993576560]; StrE false 39 [3538179259381274569; 44761892522253849200]; StrE false 39 [5503834403481982663; 58518499479061543200]; StrE false 39 [8305786463436446565; 4673371941129237920]; StrE false 40 [12162044464317653898; 81843151770939241240]; StrE false 40 [17282905291398771329; 89987636727124184920]; StrE false 40 [23838490057101753558; 48258809278791979200]; StrE false 40 [31919334144254890357; 96821117508890955200]; StrE false 40 [41495134387531357465; 35867452761558241760]; StrE false 40 [52379104062949418439; 87898260043278436320]; StrE false 40 [64206643690067029055; 33552705859502599360]; StrE false 40 [76436480583413129827; 78038935547026904000]; StrE false 40 [88379680674571431363; 37107519226249857750]; StrE false 40 [99257179834518684454; 24751521592557532550]; StrE false 41 [1; 8280559819474928495; 54274387191880944600]; StrE false 41 [1; 14745070853473431689; 30648977471993239800]; StrE false 41 [1; 18119925878575591444; 87432770927051864500]; StrE false 41 [1; 18119925878575591444; 87432770927051864500]; StrE false 41 [1; 14745070853473431689; 30648977471993239800]; StrE false 41 [1; 8280559819474928495; 54274387191880944600]; StrE false 40 [99257179834518684454; 24751521592557532550]; StrE false 40 [88379680674571431363; 37107519226249857750]; StrE false 40 [76436480583413129827; 78038935547026904000]; StrE false 40 [64206643690067029055; 33552705859502599360]; StrE false 40 [52379104062949418439; 87898260043278436320]; StrE false 40 [41495134387531357465; 35867452761558241760]; StrE false 40 [31919334144254890357; 96821117508890955200]; StrE false 40 [23838490057101753558; 48258809278791979200]; StrE false 40 [17282905291398771329; 89987636727124184920]; StrE false 40 [12162044464317653898; 81843151770939241240]; StrE false 39 [8305786463436446565; 4673371941129237920]; StrE false 39 [5503834403481982663; 58518499479061543200]; StrE false 39 [3538179259381274569; 44761892522253849200]; StrE false 39 [2206158832320088849; 18498591807993576560]; StrE false 39 [1333956503263309536; 71650311325763557920]; StrE false 38 [781974501912974556; 622596294413120160]; StrE false 38 [444303694268735543; 18535566076371091000]; StrE false 38 [244616640664809456; 36047671210586331000]; StrE false 38 [130462208354565043; 39225424645646043200]; StrE false 37 [67381580139170956; 47731812729069934400]; StrE false 37 [33690790069585478; 23865906364534967200]; StrE false 37 [16301995194960715; 27677051466710468000]; StrE false 36 [7630721155087994; 38487130473779368000]; StrE false 36 [3453905364934565; 87946806424973819200]; StrE false 36 [1511083597158872; 57226727810926045900]; StrE false 35 [638705437974368; 81920575672659462700]; StrE false 35 [260696097132395; 43641051294963046000]; StrE false 35 [102698462506701; 23252535358621806000]; StrE false 34 [39025415752546; 46835963436276286280]; StrE false 34 [14296439434101; 18147828189526956360]; StrE false 33 [5045802153212; 18169821713950690480]; StrE false 33 [1714592964683; 75106250096973535600]; StrE false 32 [560540007685; 7246274070164425100]; StrE false 32 [176169716701; 2277400422051676460]; StrE false 31 [53183310702; 19555441636845789120]; StrE false 31 [15408248895; 2861856922824480960]; StrE false 30 [4280069137; 50794960256340133600]; StrE false 30 [1138733990; 71312420618659301600]; StrE false 29 [289859561; 27243161612022367680]; StrE false 28 [70506379; 76896985256978413760]; StrE false 28 [16367552; 44636800148941417480]; StrE false 27 [3621139; 92176283218792349000]; StrE false 26 [762345; 24668691203956284000]; StrE false 26 [152469; 4933738240791256800]; StrE false 25 [28916; 54383984838770755600]; StrE false 24 [5190; 14889433176189622800]; StrE false 23 [879; 68625327656981292000]; StrE false 23 [140; 45410766600694492000]; StrE false 22 [21; 6811614990104173800]; StrE false 21 [2; 95998326072989842600]; StrE false 20 [38819452599736372800]; IntE 4734079585333704000; IntE 534492856408644000; IntE 55587257066498976; IntE 5294024482523712; IntE 458537553604416; IntE 35823246375345; IntE 2499296258745; IntE 153802846692; IntE 8218472724; IntE 373566942; IntE 14043870; IntE 419220; IntE 9316; IntE 137; IntE 1];
[IntE 1; IntE 138; IntE 9453; IntE 428536; IntE 14463090; IntE 387610812; IntE 8592039666; IntE 162021319416; IntE 2653099105437; IntE 38322542634090; IntE 494360799979761; IntE 5752562036128128; IntE 60881281549022688; IntE 590080113475142976; IntE 5268572441742348000; StrE false 20 [43553532185070076800]; StrE false 21 [3; 34817778672726215400]; StrE false 22 [24; 2809941063094016400]; StrE false 23 [161; 52222381590798665800]; StrE false 24 [1020; 14036094257675784000]; StrE false 24 [6069; 83514760833170914800]; StrE false 25 [34106; 69273418014960378400]; StrE false 26 [181385; 59317723079562012400]; StrE false 26 [914814; 29602429444747540800]; StrE false 27 [4383485; 16844974422748633000]; StrE false 28 [19988692; 36813083367733766480]; StrE false 28 [86873932; 21533785405919831240]; StrE false 29 [360365941; 4140146869000781440]; StrE false 30 [1428593551; 98555582230681669280]; StrE false 30 [5418803128; 22107380874999435200]; StrE false 31 [19688318032; 53656817179164614560]; StrE false 31 [68591559597; 22417298559670270080]; StrE false 32 [229353027403; 21832842058897465580]; StrE false 32 [736709724386; 9523674492216101560]; StrE false 33 [2275132972368; 82352524167137960700]; StrE false 33 [6760395117895; 93276071810924226080]; StrE false 34 [19342241587313; 36317649903477646840]; StrE false 34 [53321855186647; 64983791625803242640]; StrE false 35 [141723878259247; 70088498794898092280]; StrE false 35 [363394559639096; 66893586653584852000]; StrE false 35 [899401535106764; 25561626967622508700]; StrE false 36 [2149789035133241; 39147303483585508600]; StrE false 36 [4964988962093438; 45173534235899865100]; StrE false 37 [11084626520022560; 26433936898753187200]; StrE false 37 [23932716350048709; 66164181940489836000]; StrE false 37 [49992785264546193; 51542957831245435200]; StrE false 38 [101072370208756434; 71597719093604901600]; StrE false 38 [197843788493735999; 86957237374715977600]; StrE false 38 [375078849019374499; 75273095856232374200]; StrE false 38 [688920334933544999; 54583237286957422000]; StrE false 39 [1226278196181710099; 19158162370784211160]; StrE false 39 [2115931005176284092; 72272907620176678080]; StrE false 39 [3540115335583398385; 90148903133757134480]; StrE false 39 [5744338091701363418; 63260484330247425760]; StrE false 39 [9042013662863257233; 3280392001315392400]; StrE false 40 [13809620866918429228; 63191871420190781120]; StrE false 40 [20467830927754100463; 86516523712068479160]; StrE false 40 [29444949755716425228; 71830788498063426160]; StrE false 40 [41121395348500524888; 38246446005916164120]; StrE false 40 [55757824201356643916; 45079926787682934400]; StrE false 40 [73414468531786247823; 32688570270449196960]; StrE false 40 [93874238450480775905; 23765712804836678080]; StrE false 41 [1; 16585747753016447495; 21450965902781035680]; StrE false 41 [1; 40643124273480158883; 11591641406529503360]; StrE false 41 [1; 64816161257984561191; 15146454773276761750]; StrE false 41 [1; 87636860509090115817; 61859040818807390300]; StrE false 41 [2; 7537739653993612949; 79025908784438477150]; StrE false 41 [2; 23025630672948360184; 84923364663874184400]; StrE false 41 [2; 32864996732049023134; 18081748399045104300]; StrE false 41 [2; 36239851757151182889; 74865541854103729000]; StrE false 41 [2; 32864996732049023134; 18081748399045104300]; StrE false 41 [2; 23025630672948360184; 84923364663874184400]; StrE false 41 [2; 7537739653993612949; 79025908784438477150]; StrE false 41 [1; 87636860509090115817; 61859040818807390300]; StrE false 41 [1; 64816161257984561191; 15146454773276761750]; StrE false 41 [1; 40643124273480158883; 11591641406529503360]; StrE false 41 [1; 16585747753016447495; 21450965902781035680]; StrE false 40 [93874238450480775905; 23765712804836678080]; StrE false 40 [73414468531786247823; 32688570270449196960]; StrE false 40 [55757824201356643916; 45079926787682934400]; StrE false 40 [41121395348500524888; 38246446005916164120]; StrE false 40 [29444949755716425228; 71830788498063426160]; StrE false 40 [20467830927754100463; 86516523712068479160]; StrE false 40 [13809620866918429228; 63191871420190781120]; StrE false 39 [9042013662863257233; 3280392001315392400]; StrE false 39 [5744338091701363418; 63260484330247425760]; StrE false 39 [3540115335583398385; 90148903133757134480]; StrE false 39 [2115931005176284092; 72272907620176678080]; StrE false 39 [1226278196181710099; 19158162370784211160]; StrE false 38 [688920334933544999; 54583237286957422000]; StrE false 38 [375078849019374499; 75273095856232374200]; StrE false 38 [197843788493735999; 86957237374715977600]; StrE false 38 [101072370208756434; 71597719093604901600]; StrE false 37 [49992785264546193; 51542957831245435200]; StrE false 37 [23932716350048709; 66164181940489836000]; StrE false 37 [11084626520022560; 26433936898753187200]; StrE false 36 [4964988962093438; 45173534235899865100]; StrE false 36 [2149789035133241; 39147303483585508600]; StrE false 35 [899401535106764; 25561626967622508700]; StrE false 35 [363394559639096; 66893586653584852000]; StrE false 35 [141723878259247; 70088498794898092280]; StrE false 34 [53321855186647; 64983791625803242640]; StrE false 34 [19342241587313; 36317649903477646840]; StrE false 33 [6760395117895; 93276071810924226080]; StrE false 33 [2275132972368; 82352524167137960700]; StrE false 32 [736709724386; 9523674492216101560]; StrE false 32 [229353027403; 21832842058897465580]; StrE false 31 [68591559597; 22417298559670270080]; StrE false 31 [19688318032; 53656817179164614560]; StrE false 30 [5418803128; 22107380874999435200]; StrE false 30 [1428593551; 98555582230681669280]; StrE false 29 [360365941; 4140146869000781440]; StrE false 28 [86873932; 21533785405919831240]; StrE false 28 [19988692; 36813083367733766480]; StrE false 27 [4383485; 16844974422748633000]; StrE false 26 [914814; 29602429444747540800]; StrE false 26 [181385; 59317723079562012400]; StrE false 25 [34106; 69273418014960378400]; StrE false 24 [6069; 83514760833170914800]; StrE false 24 [1020; 14036094257675784000]; StrE false 23 [161; 52222381590798665800]; StrE false 22 [24; 2809941063094016400]; StrE false 21 [3; 34817778672726215400]; StrE false 20 [43553532185070076800]; IntE 5268572441742348000; IntE 590080113475142976; IntE 60881281549022688; IntE 5752562036128128; IntE 494360799979761; IntE 38322542634090; IntE 2653099105437; IntE 162021319416; IntE 8592039666; IntE 387610812; IntE 14463090; IntE 428536; IntE 9453; IntE 138; IntE 1];
[IntE 1; IntE 139; IntE 9591; IntE 437989; IntE 14891626; IntE 402073902; IntE 8979650478; IntE 170613359082; IntE 2815120424853; IntE 40975641739527; IntE 532683342613851; IntE 6246922836107889; IntE 66633843585150816; IntE 650961395024165664; IntE 5858652555217490976; StrE false 20 [48822104626812424800]; StrE false 21 [3; 78371310857796292200]; StrE false 22 [27; 37627719735820231800]; StrE false 23 [185; 55032322653892682200]; StrE false 24 [1181; 66258475848474449800]; StrE false 24 [7089; 97550855090846698800]; StrE false 25 [40176; 52788178848131293200]; StrE false 26 [215492; 28591141094522390800]; StrE false 27 [1096199; 88920152524309553200]; StrE false 27 [5298299; 46447403867496173800]; StrE false 28 [24372177; 53658057790482399480]; StrE false 29 [106862624; 58346868773653597720]; StrE false 29 [447239873; 25673932274920612680]; StrE false 30 [1788959493; 2695729099682450720]; StrE false 30 [6847396680; 20662963105681104480]; StrE false 31 [25107121160; 75764198054164049760]; StrE false 31 [88279877629; 76074115738834884640]; StrE false 32 [297944587000; 44250140618567735660]; StrE false 32 [966062751789; 31356516551113567140]; StrE false 33 [3011842696754; 91876198659354062260]; StrE false 33 [9035528090264; 75628595978062186780]; StrE false 34 [26102636705209; 29593721714401872920]; StrE false 34 [72664096773961; 1301441529280889480]; StrE false 35 [195045733445895; 35072290420701334920]; StrE false 35 [505118437898344; 36982085448482944280]; StrE false 36 [1262796094745860; 92455213621207360700]; StrE false 36 [3049190570240005; 64708930451208017300]; StrE false 36 [7114777997226679; 84320837719485373700]; StrE false 37 [16049615482115998; 71607471134653052300]; StrE false 37 [35017342870071269; 92598118839243023200]; StrE false 37 [73925501614594903; 17707139771735271200]; StrE false 38 [151065155473302628; 23140676924850336800]; StrE false 38 [298916158702492434; 58554956468320879200]; StrE false 38 [572922637513110499; 62230333230948351800]; StrE false 39 [1063999183952919499; 29856333143189796200]; StrE false 39 [1915198531115255098; 73741399657741633160]; StrE false 39 [3342209201357994191; 91431069990960889240]; StrE false 39 [5656046340759682478; 62421810753933812560]; StrE false 39 [9284453427284761804; 53409387464004560240]; StrE false 40 [14786351754564620651; 66540876331562818160]; StrE false 40 [22851634529781686461; 66472263421506173520]; StrE false 40 [34277451794672529692; 49708395132259260280]; StrE false 40 [49912780683470525692; 58347312210131905320]; StrE false 40 [70566345104216950117; 10077234503979590280]; StrE false 40 [96879219549857168804; 83326372793599098520]; StrE false 41 [1; 29172292733142891739; 77768497058132131360]; StrE false 41 [1; 67288706982267023728; 56454283075285875040]; StrE false 41 [2; 10459986203497223400; 45216678707617713760]; StrE false 41 [2; 57228872026496606378; 33042607309310539040]; StrE false 41 [3; 5459285531464720074; 26738096179806265110]; StrE false 41 [3; 52453021767074677008; 77005495592084152050]; StrE false 41 [3; 95174600163083728767; 40884949603245867450]; StrE false 41 [4; 30563370326941973134; 63949273448312661550]; StrE false 41 [4; 55890627404997383319; 3005113062919288700]; StrE false 41 [4; 69104848489200206023; 92947290253148833300]; StrE false 41 [4; 69104848489200206023; 92947290253148833300]; StrE false 41 [4; 55890627404997383319; 3005113062919288700]; StrE false 41 [4; 30563370326941973134; 63949273448312661550]; StrE false 41 [3; 95174600163083728767; 40884949603245867450]; StrE false 41 [3; 52453021767074677008; 77005495592084152050]; StrE false 41 [3; 5459285531464720074; 26738096179806265110]; StrE false 41 [2; 57228872026496606378; 33042607309310539040]; StrE false 41 [2; 10459986203497223400; 45216678707617713760]; StrE false 41 [1; 67288706982267023728; 56454283075285875040]; StrE false 41 [1; 29172292733142891739; 77768497058132131360]; StrE false 40 [96879219549857168804; 83326372793599098520]; StrE false 40 [70566345104216950117; 10077234503979590280]; StrE false 40 [49912780683470525692; 58347312210131905320]; StrE false 40 [34277451794672529692; 49708395132259260280]; StrE false 40 [22851634529781686461; 66472263421506173520]; StrE false 40 [14786351754564620651; 66540876331562818160]; StrE false 39 [9284453427284761804; 53409387464004560240]; StrE false 39 [5656046340759682478; 62421810753933812560]; StrE false 39 [3342209201357994191; 91431069990960889240]; StrE false 39 [1915198531115255098; 73741399657741633160]; StrE false 39 [1063999183952919499; 29856333143189796200]; StrE false 38 [572922637513110499; 62230333230948351800]; StrE false 38 [298916158702492434; 58554956468320879200]; StrE false 38 [151065155473302628; 23140676924850336800]; StrE false 37 [73925501614594903; 17707139771735271200]; StrE false 37 [35017342870071269; 92598118839243023200]; StrE false 37 [16049615482115998; 71607471134653052300]; StrE false 36 [7114777997226679; 84320837719485373700]; StrE false 36 [3049190570240005; 64708930451208017300]; StrE false 36 [1262796094745860; 92455213621207360700]; StrE false 35 [505118437898344; 36982085448482944280]; StrE false 35 [195045733445895; 35072290420701334920]; StrE false 34 [72664096773961; 1301441529280889480]; StrE false 34 [26102636705209; 29593721714401872920]; StrE false 33 [9035528090264; 75628595978062186780]; StrE false 33 [3011842696754; 91876198659354062260]; StrE false 32 [966062751789; 31356516551113567140]; StrE false 32 [297944587000; 44250140618567735660]; StrE false 31 [88279877629; 76074115738834884640]; StrE false 31 [25107121160; 75764198054164049760]; StrE false 30 [6847396680; 20662963105681104480]; StrE false 30 [1788959493; 2695729099682450720]; StrE false 29 [447239873; 25673932274920612680]; StrE false 29 [106862624; 58346868773653597720]; StrE false 28 [24372177; 53658057790482399480]; StrE false 27 [5298299; 46447403867496173800]; StrE false 27 [1096199; 88920152524309553200]; StrE false 26 [215492; 28591141094522390800]; StrE false 25 [40176; 52788178848131293200]; StrE false 24 [7089; 97550855090846698800]; StrE false 24 [1181; 66258475848474449800]; StrE false 23 [185; 55032322653892682200]; StrE false 22 [27; 37627719735820231800]; StrE false 21 [3; 78371310857796292200]; StrE false 20 [48822104626812424800]; IntE 5858652555217490976; IntE 650961395024165664; IntE 66633843585150816; IntE 6246922836107889; IntE 532683342613851; IntE 40975641739527; IntE 2815120424853; IntE 170613359082; IntE 8979650478; IntE 402073902; IntE 14891626; IntE 437989; IntE 9591; IntE 139; IntE 1];
[IntE 1; IntE 140; IntE 9730; IntE 447580; IntE 15329615; IntE 416965528; IntE 9381724380; IntE 179593009560; IntE 2985733783935; IntE 43790762164380; IntE 573658984353378; IntE 6779606178721740; IntE 72880766421258705; IntE 717595238609316480; IntE 6509613950241656640; StrE false 20 [54680757182029915776]; StrE false 21 [4; 27193415484608717000]; StrE false 22 [31; 15999030593616524000]; StrE false 23 [212; 92660042389712914000]; StrE false 24 [1367; 21290798502367132000]; StrE false 24 [8271; 63809330939321148600]; StrE false 25 [47266; 50339033938977992000]; StrE false 26 [255668; 81379319942653684000]; StrE false 27 [1311692; 17511293618831944000]; StrE false 27 [6394499; 35367556391805727000]; StrE false 28 [29670477; 105461657978573280]; StrE false 29 [131234802; 12004926564135997200]; StrE false 29 [554102497; 84020801048574210400]; StrE false 30 [2236199366; 28369661374603063400]; StrE false 30 [8636356173; 23358692205363555200]; StrE false 31 [31954517840; 96427161159845154240]; StrE false 32 [113386998790; 51838313792998934400]; StrE false 32 [386224464630; 20324256357402620300]; StrE false 33 [1264007338789; 75606657169681302800]; StrE false 33 [3977905448544; 23232715210467629400]; StrE false 34 [12047370787019; 67504794637416249040]; StrE false 34 [35138164795474; 5222317692464059700]; StrE false 34 [98766733479170; 30895163243682762400]; StrE false 35 [267709830219856; 36373731949982224400]; StrE false 35 [700164171344239; 72054375869184279200]; StrE false 36 [1767914532644205; 29437299069690304980]; StrE false 36 [4311986664985866; 57164144072415378000]; StrE false 37 [10163968567466685; 49029768170693391000]; StrE false 37 [23164393479342678; 55928308854138426000]; StrE false 37 [51066958352187268; 64205589973896075500]; StrE false 38 [108942844484666173; 10305258610978294400]; StrE false 38 [224990657087897531; 40847816696585608000]; StrE false 38 [449981314175795062; 81695633393171216000]; StrE false 38 [871838796215602934; 20785289699269231000]; StrE false 39 [1636921821466029998; 92086666374138148000]; StrE false 39 [2979197715068174598; 3597732800931429360]; StrE false 39 [5257407732473249290; 65172469648702522400]; StrE false 39 [8998255542117676670; 53852880744894701800]; StrE false 40 [14940499768044444283; 15831198217938372800]; StrE false 40 [24070805181849382456; 19950263795567378400]; StrE false 40 [37637986284346307113; 33013139753068991680]; StrE false 40 [57129086324454216154; 16180658553765433800]; StrE false 40 [84190232478143055385; 8055707342391165600]; StrE false 41 [1; 20479125787687475809; 68424546714111495600]; StrE false 41 [1; 67445564654074118921; 93403607297578688800]; StrE false 41 [2; 26051512283000060544; 61094869851731229880]; StrE false 41 [2; 96460999715409915468; 34222780133418006400]; StrE false 41 [3; 77748693185764247129; 1670961782903588800]; StrE false 41 [4; 67688858229993829778; 78259286016928252800]; StrE false 41 [5; 62688157557961326452; 59780703489116804150]; StrE false 41 [6; 57912307298539397083; 3743591771890417160]; StrE false 41 [7; 47627621930158405776; 17890445195330019500]; StrE false 41 [8; 25737970490025701902; 4834223051558529000]; StrE false 41 [8; 86453997731939356453; 66954386511231950250]; StrE false 41 [9; 24995475894197589342; 95952403316068122000]; StrE false 41 [9; 38209696978400412047; 85894580506297666600]; StrE false 41 [9; 24995475894197589342; 95952403316068122000]; StrE false 41 [8; 86453997731939356453; 66954386511231950250]; StrE false 41 [8; 25737970490025701902; 4834223051558529000]; StrE false 41 [7; 47627621930158405776; 17890445195330019500]; StrE false 41 [6; 57912307298539397083; 3743591771890417160]; StrE false 41 [5; 62688157557961326452; 59780703489116804150]; StrE false 41 [4; 67688858229993829778; 78259286016928252800]; StrE false 41 [3; 77748693185764247129; 1670961782903588800]; StrE false 41 [2; 96460999715409915468; 34222780133418006400]; StrE false 41 [2; 26051512283000060544; 61094869851731229880]; StrE false 41 [1; 67445564654074118921; 93403607297578688800]; StrE false 41 [1; 20479125787687475809; 68424546714111495600]; StrE false 40 [84190232478143055385; 8055707342391165600]; StrE false 40 [57129086324454216154; 16180658553765433800]; StrE false 40 [37637986284346307113; 33013139753068991680]; StrE false 40 [24070805181849382456; 19950263795567378400]; StrE false 40 [14940499768044444283; 15831198217938372800]; StrE false 39 [8998255542117676670; 53852880744894701800]; StrE false 39 [5257407732473249290; 65172469648702522400]; StrE false 39 [2979197715068174598; 3597732800931429360]; StrE false 39 [1636921821466029998; 92086666374138148000]; StrE false 38 [871838796215602934; 20785289699269231000]; StrE false 38 [449981314175795062; 81695633393171216000]; StrE false 38 [224990657087897531; 40847816696585608000]; StrE false 38 [108942844484666173; 10305258610978294400]; StrE false 37 [51066958352187268; 64205589973896075500]; StrE false 37 [23164393479342678; 55928308854138426000]; StrE false 37 [10163968567466685; 49029768170693391000]; StrE false 36 [4311986664985866; 57164144072415378000]; StrE false 36 [1767914532644205; 29437299069690304980]; StrE false 35 [700164171344239; 72054375869184279200]; StrE false 35 [267709830219856; 36373731949982224400]; StrE false 34 [98766733479170; 30895163243682762400]; StrE false 34 [35138164795474; 5222317692464059700]; StrE false 34 [12047370787019; 67504794637416249040]; StrE false 33 [3977905448544; 23232715210467629400]; StrE false 33 [1264007338789; 75606657169681302800]; StrE false 32 [386224464630; 20324256357402620300]; StrE false 32 [113386998790; 51838313792998934400]; StrE false 31 [31954517840; 96427161159845154240]; StrE false 30 [8636356173; 23358692205363555200]; StrE false 30 [2236199366; 28369661374603063400]; StrE false 29 [554102497; 84020801048574210400]; StrE false 29 [131234802; 12004926564135997200]; StrE false 28 [29670477; 105461657978573280]; StrE false 27 [6394499; 35367556391805727000]; StrE false 27 [1311692; 17511293618831944000]; StrE false 26 [255668; 81379319942653684000]; StrE false 25 [47266; 50339033938977992000]; StrE false 24 [8271; 63809330939321148600]; StrE false 24 [1367; 21290798502367132000]; StrE false 23 [212; 92660042389712914000]; StrE false 22 [31; 15999030593616524000]; StrE false 21 [4; 27193415484608717000]; StrE false 20 [54680757182029915776]; IntE 6509613950241656640; IntE 717595238609316480; IntE 72880766421258705; IntE 6779606178721740; IntE 573658984353378; IntE 43790762164380; IntE 2985733783935; IntE 179593009560; IntE 9381724380; IntE 416965528; IntE 15329615; IntE 447580; IntE 9730; IntE 140; IntE 1];
[IntE 1; IntE 141; IntE 9870; IntE 457310; IntE 15777195; IntE 432295143; IntE 9798689908; IntE 188974733940; IntE 3165326793495; IntE 46776495948315; IntE 617449746517758; IntE 7353265163075118; IntE 79660372599980445; IntE 790476005030575185; IntE 7227209188850973120; StrE false 20 [61190371132271572416]; StrE false 21 [4; 81874172666638632776]; StrE false 22 [35; 43192446078225241000]; StrE false 23 [244; 8659072983329438000]; StrE false 24 [1580; 13950840892080046000]; StrE false 24 [9638; 85100129441688280600]; StrE false 25 [55538; 14148364878299140600]; StrE false 26 [302935; 31718353881631676000]; StrE false 27 [1567360; 98890613561485628000]; StrE false 27 [7706191; 52878850010637671000]; StrE false 28 [36064976; 35473018049784300280]; StrE false 29 [160905279; 12110388222114570480]; StrE false 29 [685337299; 96025727612710207600]; StrE false 30 [2790301864; 12390462423177273800]; StrE false 31 [10872555539; 51728353579966618600]; StrE false 31 [40590874014; 19785853365208709440]; StrE false 32 [145341516631; 48265474952844088640]; StrE false 32 [499611463420; 72162570150401554700]; StrE false 33 [1650231803419; 95930913527083923100]; StrE false 33 [5241912787333; 98839372380148932200]; StrE false 34 [16025276235563; 90737509847883878440]; StrE false 34 [47185535582493; 72727112329880308740]; StrE false 35 [133904898274644; 36117480936146822100]; StrE false 35 [366476563699026; 67268895193664986800]; StrE false 35 [967874001564096; 8428107819166503600]; StrE false 36 [2468078703988445; 1491674938874584180]; StrE false 36 [6079901197630071; 86601443142105682980]; StrE false 37 [14475955232452552; 6193912243108769000]; StrE false 37 [33328362046809364; 4958077024831817000]; StrE false 37 [74231351831529947; 20133898828034501500]; StrE false 38 [160009802836853441; 74510848584874369900]; StrE false 38 [333933501572563704; 51153075307563902400]; StrE false 38 [674971971263692594; 22543450089756824000]; StrE false 39 [1321820110391397997; 2480923092440447000]; StrE false 39 [2508760617681632933; 12871956073407379000]; StrE false 39 [4616119536534204596; 95684399175069577360]; StrE false 39 [8236605447541423888; 68770202449633951760]; StrE false 40 [14255663274590925961; 19025350393597224200]; StrE false 40 [23938755310162120953; 69684078962833074600]; StrE false 40 [39011304949893826739; 35781462013505751200]; StrE false 40 [61708791466195689569; 52963403548636370080]; StrE false 40 [94767072608800523267; 49193798306834425480]; StrE false 41 [1; 41319318802597271539; 24236365896156599400]; StrE false 41 [2; 4669358265830531194; 76480254056502661200]; StrE false 41 [2; 87924690441761594731; 61828154011690184400]; StrE false 41 [3; 93497076937074179466; 54498477149309918680]; StrE false 41 [5; 22512511998409976012; 95317649985149236280]; StrE false 41 [6; 74209692901174162597; 35893741916321595200]; StrE false 41 [8; 45437551415758076907; 79930247799831841600]; StrE false 42 [10; 30377015787955156231; 38039989506045056950]; StrE false 42 [12; 20600464856500723535; 63524295261007221310]; StrE false 42 [14; 5539929228697802859; 21634036967220436660]; StrE false 42 [15; 73365592420184107678; 22724668246888548500]; StrE false 42 [17; 12191968221965058355; 71788609562790479250]; StrE false 42 [18; 11449473626136945796; 62906789827300072250]; StrE false 42 [18; 63205172872598001390; 81846983822365788600]; StrE false 42 [18; 63205172872598001390; 81846983822365788600]; StrE false 42 [18; 11449473626136945796; 62906789827300072250]; StrE false 42 [17; 12191968221965058355; 71788609562790479250]; StrE false 42 [15; 73365592420184107678; 22724668246888548500]; StrE false 42 [14; 5539929228697802859; 21634036967220436660]; StrE false 42 [12; 20600464856500723535; 63524295261007221310]; StrE false 42 [10; 30377015787955156231; 38039989506045056950]; StrE false 41 [8; 45437551415758076907; 79930247799831841600]; StrE false 41 [6; 74209692901174162597; 35893741916321595200]; StrE false 41 [5; 22512511998409976012; 95317649985149236280]; StrE false 41 [3; 93497076937074179466; 54498477149309918680]; StrE false 41 [2; 87924690441761594731; 61828154011690184400]; StrE false 41 [2; 4669358265830531194; 76480254056502661200]; StrE false 41 [1; 41319318802597271539; 24236365896156599400]; StrE false 40 [94767072608800523267; 49193798306834425480]; StrE false 40 [61708791466195689569; 52963403548636370080]; StrE false 40 [39011304949893826739; 35781462013505751200]; StrE false 40 [23938755310162120953; 69684078962833074600]; StrE false 40 [14255663274590925961; 19025350393597224200]; StrE false 39 [8236605447541423888; 68770202449633951760]; StrE false 39 [4616119536534204596; 95684399175069577360]; StrE false 39 [2508760617681632933; 12871956073407379000]; StrE false 39 [1321820110391397997; 2480923092440447000]; StrE false 38 [674971971263692594; 22543450089756824000]; StrE false 38 [333933501572563704; 51153075307563902400]; StrE false 38 [160009802836853441; 74510848584874369900]; StrE false 37 [74231351831529947; 20133898828034501500]; StrE false 37 [33328362046809364; 4958077024831817000]; StrE false 37 [14475955232452552; 6193912243108769000]; StrE false 36 [6079901197630071; 86601443142105682980]; StrE false 36 [2468078703988445; 1491674938874584180]; StrE false 35 [967874001564096; 8428107819166503600]; StrE false 35 [366476563699026; 67268895193664986800]; StrE false 35 [133904898274644; 36117480936146822100]; StrE false 34 [47185535582493; 72727112329880308740]; StrE false 34 [16025276235563; 90737509847883878440]; StrE false 33 [5241912787333; 98839372380148932200]; StrE false 33 [1650231803419; 95930913527083923100]; StrE false 32 [499611463420; 72162570150401554700]; StrE false 32 [145341516631; 48265474952844088640]; StrE false 31 [40590874014; 19785853365208709440]; StrE false 31 [10872555539; 51728353579966618600]; StrE false 30 [2790301864; 12390462423177273800]; StrE false 29 [685337299; 96025727612710207600]; StrE false 29 [160905279; 12110388222114570480]; StrE false 28 [36064976; 35473018049784300280]; StrE false 27 [7706191; 52878850010637671000]; StrE false 27 [1567360; 98890613561485628000]; StrE false 26 [302935; 31718353881631676000]; StrE false 25 [55538; 14148364878299140600]; StrE false 24 [9638; 85100129441688280600]; StrE false 24 [1580; 13950840892080046000]; StrE false 23 [244; 8659072983329438000]; StrE false 22 [35; 43192446078225241000]; StrE false 21 [4; 81874172666638632776]; StrE false 20 [61190371132271572416]; IntE 7227209188850973120; IntE 790476005030575185; IntE 79660372599980445; IntE 7353265163075118; IntE 617449746517758; IntE 46776495948315; IntE 3165326793495; IntE 188974733940; IntE 9798689908; IntE 432295143; IntE 15777195; IntE 457310; IntE 9870; IntE 141; IntE 1];
[IntE 1; IntE 142; IntE 10011; IntE 467180; IntE 16234505; IntE 448072338; IntE 10230985051; IntE 198773423848; IntE 3354301527435; IntE 49941822741810; IntE 664226242466073; IntE 7970714909592876; IntE 87013637763055563; IntE 870136377630555630; IntE 8017685193881548305; StrE false 20 [68417580321122545536]; StrE false 21 [5; 43064543798910205192]; StrE false 22 [40; 25066618744863873776]; StrE false 23 [279; 51851519061554679000]; StrE false 24 [1824; 22609913875409484000]; StrE false 25 [11218; 99050970333768326600]; StrE false 25 [65176; 99248494319987421200]; StrE false 26 [358473; 45866718759930816600]; StrE false 27 [1870296; 30608967443117304000]; StrE false 27 [9273552; 51769463572123299000]; StrE false 28 [43771167; 88351868060421971280]; StrE false 29 [196970255; 47583406271898870760]; StrE false 29 [846242579; 8136115834824778080]; StrE false 30 [3475639164; 8416190035887481400]; StrE false 31 [13662857403; 64118816003143892400]; StrE false 31 [51463429553; 71514206945175328040]; StrE false 32 [185932390645; 68051328318052798080]; StrE false 32 [644952980052; 20428045103245643340]; StrE false 33 [2149843266840; 68093483677485477800]; StrE false 33 [6892144590753; 94770285907232855300]; StrE false 34 [21267189022897; 89576882228032810640]; StrE false 34 [63210811818057; 63464622177764187180]; StrE false 35 [181090433857138; 8844593266027130840]; StrE false 35 [500381461973671; 3386376129811808900]; StrE false 36 [1334350565263122; 75697003012831490400]; StrE false 36 [3435952705552541; 9919782758041087780]; StrE false 36 [8547979901618516; 88093118080980267160]; StrE false 37 [20555856430082623; 92795355385214451980]; StrE false 37 [47804317279261916; 11151989267940586000]; StrE false 38 [107559713878339311; 25091975852866318500]; StrE false 38 [234241154668383388; 94644747412908871400]; StrE false 38 [493943304409417146; 25663923892438272300]; StrE false 39 [1008905472836256298; 73696525397320726400]; StrE false 39 [1996792081655090591; 25024373182197271000]; StrE false 39 [3830580728073030930; 15352879165847826000]; StrE false 39 [7124880154215837530; 8556355248476956360]; StrE false 40 [12852724984075628485; 64454601624703529120]; StrE false 40 [22492268722132349849; 87795552843231175960]; StrE false 40 [38194418584753046914; 88709429356430298800]; StrE false 40 [62950060260055947693; 5465540976338825800]; StrE false 41 [1; 720096416089516308; 88744865562142121280]; StrE false 41 [1; 56475864074996212837; 2157201855470795560]; StrE false 41 [2; 36086391411397794806; 73430164202991024880]; StrE false 41 [3; 45988677068427802734; 716619952659260600]; StrE false 41 [4; 92594048707592125926; 38308408068192845600]; StrE false 41 [6; 81421767378835774198; 16326631161000103080]; StrE false 41 [9; 16009588935484155479; 49816127134459154960]; StrE false 42 [11; 96722204899584138610; 31211391901470831480]; StrE false 42 [15; 19647244316932239505; 15823989716153436800]; StrE false 42 [18; 75814567203713233139; 17970237305876898550]; StrE false 42 [22; 50977480644455879767; 1564284767052278260]; StrE false 42 [26; 26140394085198526394; 85158332228227657970]; StrE false 42 [29; 78905521648881910537; 44358705214108985160]; StrE false 42 [32; 85557560642149166033; 94513277809679027750]; StrE false 42 [35; 23641441848102004152; 34695399390090551500]; StrE false 42 [36; 74654646498734947187; 44753773649665860850]; StrE false 42 [37; 26410345745196002781; 63693967644731577200]; StrE false 42 [36; 74654646498734947187; 44753773649665860850]; StrE false 42 [35; 23641441848102004152; 34695399390090551500]; StrE false 42 [32; 85557560642149166033; 94513277809679027750]; StrE false 42 [29; 78905521648881910537; 44358705214108985160]; StrE false 42 [26; 26140394085198526394; 85158332228227657970]; StrE false 42 [22; 50977480644455879767; 1564284767052278260]; StrE false 42 [18; 75814567203713233139; 17970237305876898550]; StrE false 42 [15; 19647244316932239505; 15823989716153436800]; StrE false 42 [11; 96722204899584138610; 31211391901470831480]; StrE false 41 [9; 16009588935484155479; 49816127134459154960]; StrE false 41 [6; 81421767378835774198; 16326631161000103080]; StrE false 41 [4; 92594048707592125926; 38308408068192845600]; StrE false 41 [3; 45988677068427802734; 716619952659260600]; StrE false 41 [2; 36086391411397794806; 73430164202991024880]; StrE false 41 [1; 56475864074996212837; 2157201855470795560]; StrE false 41 [1; 720096416089516308; 88744865562142121280]; StrE false 40 [62950060260055947693; 5465540976338825800]; StrE false 40 [38194418584753046914; 88709429356430298800]; StrE false 40 [22492268722132349849; 87795552843231175960]; StrE false 40 [12852724984075628485; 64454601624703529120]; StrE false 39 [7124880154215837530; 8556355248476956360]; StrE false 39 [3830580728073030930; 15352879165847826000]; StrE false 39 [1996792081655090591; 25024373182197271000]; StrE false 39 [1008905472836256298; 73696525397320726400]; StrE false 38 [493943304409417146; 25663923892438272300]; StrE false 38 [234241154668383388; 94644747412908871400]; StrE false 38 [107559713878339311; 25091975852866318500]; StrE false 37 [47804317279261916; 11151989267940586000]; StrE false 37 [20555856430082623; 92795355385214451980]; StrE false 36 [8547979901618516; 88093118080980267160]; StrE false 36 [3435952705552541; 9919782758041087780]; StrE false 36 [1334350565263122; 75697003012831490400]; StrE false 35 [500381461973671; 3386376129811808900]; StrE false 35 [181090433857138; 8844593266027130840]; StrE false 34 [63210811818057; 63464622177764187180]; StrE false 34 [21267189022897; 89576882228032810640]; StrE false 33 [6892144590753; 94770285907232855300]; StrE false 33 [2149843266840; 68093483677485477800]; StrE false 32 [644952980052; 20428045103245643340]; StrE false 32 [185932390645; 68051328318052798080]; StrE false 31 [51463429553; 71514206945175328040]; StrE false 31 [13662857403; 64118816003143892400]; StrE false 30 [3475639164; 8416190035887481400]; StrE false 29 [846242579; 8136115834824778080]; StrE false 29 [196970255; 47583406271898870760]; StrE false 28 [43771167; 88351868060421971280]; StrE false 27 [9273552; 51769463572123299000]; StrE false 27 [1870296; 30608967443117304000]; StrE false 26 [358473; 45866718759930816600]; StrE false 25 [65176; 99248494319987421200]; StrE false 25 [11218; 99050970333768326600]; StrE false 24 [1824; 22609913875409484000]; StrE false 23 [279; 51851519061554679000]; StrE false 22 [40; 25066618744863873776]; StrE false 21 [5; 43064543798910205192]; StrE false 20 [68417580321122545536]; IntE 8017685193881548305; IntE 870136377630555630; IntE 87013637763055563; IntE 7970714909592876; IntE 664226242466073; IntE 49941822741810; IntE 3354301527435; IntE 198773423848; IntE 10230985051; IntE 448072338; IntE 16234505; IntE 467180; IntE 10011; IntE 142; IntE 1];
[IntE 1; IntE 143; IntE 10153; IntE 477191; IntE 16701685; IntE 464306843; IntE 10679057389; IntE 209004408899; IntE 3553074951283; IntE 53296124269245; IntE 714168065207883; IntE 8634941152058949; IntE 94984352672648439; IntE 957150015393611193; IntE 8887821571512103935; StrE false 20 [76435265515004093841]; StrE false 21 [6; 11482124120032750728]; StrE false 22 [45; 68131162543774078968]; StrE false 23 [319; 76918137806418552776]; StrE false 24 [2103; 74461432936964163000]; StrE false 25 [13043; 21660884209177810600]; StrE false 25 [76395; 98299464653755747800]; StrE false 26 [423650; 45115213079918237800]; StrE false 27 [2228769; 76475686203048120600]; StrE false 28 [11143848; 82378431015240603000]; StrE false 28 [53044720; 40121331632545270280]; StrE false 29 [240741423; 35935274332320842040]; StrE false 30 [1043212834; 55719522106723648840]; StrE false 30 [4321881743; 16552305870712259480]; StrE false 31 [17138496567; 72535006039031373800]; StrE false 31 [65126286957; 35633022948319220440]; StrE false 32 [237395820199; 39565535263228126120]; StrE false 32 [830885370697; 88479373421298441420]; StrE false 33 [2794796246892; 88521528780731121140]; StrE false 33 [9041987857594; 62863769584718333100]; StrE false 34 [28159333613651; 84347168135265665940]; StrE false 34 [84478000840955; 53041504405796997820]; StrE false 35 [244301245675195; 72309215443791318020]; StrE false 35 [681471895830809; 12230969395838939740]; StrE false 36 [1834732027236793; 79083379142643299300]; StrE false 36 [4770303270815663; 85616785770872578180]; StrE false 37 [11983932607171057; 98012900839021354940]; StrE false 37 [29103836331701140; 80888473466194719140]; StrE false 37 [68360173709344540; 3947344653155037980]; StrE false 38 [155364031157601227; 36243965120806904500]; StrE false 38 [341800868546722700; 19736723265775189900]; StrE false 38 [728184459077800535; 20308671305347143700]; StrE false 39 [1502848777245673444; 99360449289758998700]; StrE false 39 [3005697554491346889; 98720898579517997400]; StrE false 39 [5827372809728121521; 40377252348045097000]; StrE false 40 [10955460882288868460; 23909234414324782360]; StrE false 40 [19977605138291466015; 73010956873180485480]; StrE false 40 [35344993706207978335; 52250154467934705080]; StrE false 40 [60686687306885396764; 76504982199661474760]; StrE false 41 [1; 1144478844808994607; 94174970332769124600]; StrE false 41 [1; 63670156676145464001; 94210406538480947080]; StrE false 41 [2; 57195960491085729145; 90902067417612916840]; StrE false 41 [3; 92562255486394007643; 75587366058461820440]; StrE false 41 [5; 82075068479825597540; 74146784155650285480]; StrE false 41 [8; 38582725776019928660; 39025028020852106200]; StrE false 42 [11; 74015816086427900124; 54635039229192948680]; StrE false 42 [15; 97431356314319929677; 66142758295459258040]; StrE false 42 [21; 12731793835068294089; 81027519035929986440]; StrE false 42 [27; 16369449216516378115; 47035381617624268280]; StrE false 42 [33; 95461811520645472644; 33794227022030335350]; StrE false 42 [41; 26792047848169112906; 19534522072929176810]; StrE false 42 [48; 77117874729654406161; 86722616995279936230]; StrE false 42 [56; 5045915734080436932; 29517037442336643130]; StrE false 42 [62; 64463082291031076571; 38871983023788012910]; StrE false 42 [68; 9199002490251170186; 29208677199769579250]; StrE false 42 [71; 98296088346836951339; 79449173039756412350]; StrE false 42 [74; 1064992243930949969; 8447741294397438050]; StrE false 42 [74; 1064992243930949969; 8447741294397438050]; StrE false 42 [71; 98296088346836951339; 79449173039756412350]; StrE false 42 [68; 9199002490251170186; 29208677199769579250]; StrE false 42 [62; 64463082291031076571; 38871983023788012910]; StrE false 42 [56; 5045915734080436932; 29517037442336643130]; StrE false 42 [48; 77117874729654406161; 86722616995279936230]; StrE false 42 [41; 26792047848169112906; 19534522072929176810]; StrE false 42 [33; 95461811520645472644; 33794227022030335350]; StrE false 42 [27; 16369449216516378115; 47035381617624268280]; StrE false 42 [21; 12731793835068294089; 81027519035929986440]; StrE false 42 [15; 97431356314319929677; 66142758295459258040]; StrE false 42 [11; 74015816086427900124; 54635039229192948680]; StrE false 41 [8; 38582725776019928660; 39025028020852106200]; StrE false 41 [5; 82075068479825597540; 74146784155650285480]; StrE false 41 [3; 92562255486394007643; 75587366058461820440]; StrE false 41 [2; 57195960491085729145; 90902067417612916840]; StrE false 41 [1; 63670156676145464001; 94210406538480947080]; StrE false 41 [1; 1144478844808994607; 94174970332769124600]; StrE false 40 [60686687306885396764; 76504982199661474760]; StrE false 40 [35344993706207978335; 52250154467934705080]; StrE false 40 [19977605138291466015; 73010956873180485480]; StrE false 40 [10955460882288868460; 23909234414324782360]; StrE false 39 [5827372809728121521; 40377252348045097000]; StrE false 39 [3005697554491346889; 98720898579517997400]; StrE false 39 [1502848777245673444; 99360449289758998700]; StrE false 38 [728184459077800535; 20308671305347143700]; StrE false 38 [341800868546722700; 19736723265775189900]; StrE false 38 [155364031157601227; 36243965120806904500]; StrE false 37 [68360173709344540; 3947344653155037980]; StrE false 37 [29103836331701140; 80888473466194719140]; StrE false 37 [11983932607171057; 98012900839021354940]; StrE false 36 [4770303270815663; 85616785770872578180]; StrE false 36 [1834732027236793; 79083379142643299300]; StrE false 35 [681471895830809; 12230969395838939740]; StrE false 35 [244301245675195; 72309215443791318020]; StrE false 34 [84478000840955; 53041504405796997820]; StrE false 34 [28159333613651; 84347168135265665940]; StrE false 33 [9041987857594; 62863769584718333100]; StrE false 33 [2794796246892; 88521528780731121140]; StrE false 32 [830885370697; 88479373421298441420]; StrE false 32 [237395820199; 39565535263228126120]; StrE false 31 [65126286957; 35633022948319220440]; StrE false 31 [17138496567; 72535006039031373800]; StrE false 30 [4321881743; 16552305870712259480]; StrE false 30 [1043212834; 55719522106723648840]; StrE false 29 [240741423; 35935274332320842040]; StrE false 28 [53044720; 40121331632545270280]; StrE false 28 [11143848; 82378431015240603000]; StrE false 27 [2228769; 76475686203048120600]; StrE false 26 [423650; 45115213079918237800]; StrE false 25 [76395; 98299464653755747800]; StrE false 25 [13043; 21660884209177810600]; StrE false 24 [2103; 74461432936964163000]; StrE false 23 [319; 76918137806418552776]; StrE false 22 [45; 68131162543774078968]; StrE false 21 [6; 11482124120032750728]; StrE false 20 [76435265515004093841]; IntE 8887821571512103935; IntE 957150015393611193; IntE 94984352672648439; IntE 8634941152058949; IntE 714168065207883; IntE 53296124269245; IntE 3553074951283; IntE 209004408899; IntE 10679057389; IntE 464306843; IntE 16701685; IntE 477191; IntE 10153; IntE 143; IntE 1];
[IntE 1; IntE 144; IntE 10296; IntE 487344; IntE 17178876; IntE 481008528; IntE 11143364232; IntE 219683466288; IntE 3762079360182; IntE 56849199220528; IntE 767464189477128; IntE 9349109217266832; IntE 103619293824707388; IntE 1052134368066259632; StrE false 19 [9844971586905715128]; StrE false 20 [85323087086516197776]; StrE false 21 [6; 87917389635036844569]; StrE false 22 [51; 79613286663806829696]; StrE false 23 [365; 45049300350192631744]; StrE false 24 [2423; 51379570743382715776]; StrE false 25 [15146; 96122317146141973600]; StrE false 25 [89439; 19960348862933558400]; StrE false 26 [500046; 43414677733673985600]; StrE false 27 [2652420; 21590899282966358400]; StrE false 28 [13372618; 58854117218288723600]; StrE false 28 [64188569; 22499762647785873280]; StrE false 29 [293786143; 76056605964866112320]; StrE false 30 [1283954257; 91654796439044490880]; StrE false 30 [5365094577; 72271827977435908320]; StrE false 31 [21460378310; 89087311909743633280]; StrE false 31 [82264783525; 8168028987350594240]; StrE false 32 [302522107156; 75198558211547346560]; StrE false 33 [1068281190897; 28044908684526567540]; StrE false 33 [3625681617590; 77000902202029562560]; StrE false 34 [11836784104487; 51385298365449454240]; StrE false 34 [37201321471246; 47210937719983999040]; StrE false 35 [112637334454607; 37388672541062663760]; StrE false 35 [328779246516151; 25350719849588315840]; StrE false 35 [925773141506004; 84540184839630257760]; StrE false 36 [2516203923067602; 91314348538482239040]; StrE false 36 [6605035298052457; 64700164913515877480]; StrE false 37 [16754235877986721; 83629686609893933120]; StrE false 37 [41087768938872198; 78901374305216074080]; StrE false 37 [97464010041045680; 84835818119349757120]; StrE false 38 [223724204866945767; 40191309773961942480]; StrE false 38 [497164899704323927; 55980688386582094400]; StrE false 39 [1069985327624523235; 40045394571122333600]; StrE false 39 [2231033236323473980; 19669120595106142400]; StrE false 39 [4508546331737020334; 98081347869276996100]; StrE false 39 [8833070364219468411; 39098150927563094400]; StrE false 40 [16782833692016989981; 64286486762369879360]; StrE false 40 [30933066020580334475; 96920191287505267840]; StrE false 40 [55322598844499444351; 25261111341115190560]; StrE false 40 [96031681013093375100; 28755136667596179840]; StrE false 41 [1; 61831166151694391372; 70679952532430599360]; StrE false 41 [2; 64814635520954458609; 88385376871250071680]; StrE false 41 [4; 20866117167231193147; 85112473956093863920]; StrE false 41 [6; 49758215977479736789; 66489433476074737280]; StrE false 41 [9; 74637323966219605184; 49734150214112105920]; StrE false 42 [14; 20657794255845526201; 13171812176502391680]; StrE false 42 [20; 12598541862447828784; 93660067250045054880]; StrE false 42 [27; 71447172400747829802; 20777797524652206720]; StrE false 42 [37; 10163150149388223767; 47170277331389244480]; StrE false 42 [48; 29101243051584672205; 28062900653554254720]; StrE false 42 [61; 11831260737161850759; 80829608639654603630]; StrE false 42 [75; 22253859368814585550; 53328749094959512160]; StrE false 42 [90; 3909922577823519068; 6257139068209113040]; StrE false 43 [104; 82163790463734843094; 16239654437616579360]; StrE false 43 [118; 69508998025111513503; 68389020466124656040]; StrE false 43 [130; 73662084781282246757; 68080660223557592160]; StrE false 43 [140; 7495090837088121526; 8657850239525991600]; StrE false 43 [145; 99361080590767901308; 87896914334153850400]; StrE false 43 [148; 2129984487861899938; 16895482588794876100]; StrE false 43 [145; 99361080590767901308; 87896914334153850400]; StrE false 43 [140; 7495090837088121526; 8657850239525991600]; StrE false 43 [130; 73662084781282246757; 68080660223557592160]; StrE false 43 [118; 69508998025111513503; 68389020466124656040]; StrE false 43 [104; 82163790463734843094; 16239654437616579360]; StrE false 42 [90; 3909922577823519068; 6257139068209113040]; StrE false 42 [75; 22253859368814585550; 53328749094959512160]; StrE false 42 [61; 11831260737161850759; 80829608639654603630]; StrE false 42 [48; 29101243051584672205; 28062900653554254720]; StrE false 42 [37; 10163150149388223767; 47170277331389244480]; StrE false 42 [27; 71447172400747829802; 20777797524652206720]; StrE false 42 [20; 12598541862447828784; 93660067250045054880]; StrE false 42 [14; 20657794255845526201; 13171812176502391680]; StrE false 41 [9; 74637323966219605184; 49734150214112105920]; StrE false 41 [6; 49758215977479736789; 66489433476074737280]; StrE false 41 [4; 20866117167231193147; 85112473956093863920]; StrE false 41 [2; 64814635520954458609; 88385376871250071680]; StrE false 41 [1; 61831166151694391372; 70679952532430599360]; StrE false 40 [96031681013093375100; 28755136667596179840]; StrE false 40 [55322598844499444351; 25261111341115190560]; StrE false 40 [30933066020580334475; 96920191287505267840]; StrE false 40 [16782833692016989981; 64286486762369879360]; StrE false 39 [8833070364219468411; 39098150927563094400]; StrE false 39 [4508546331737020334; 98081347869276996100]; StrE false 39 [2231033236323473980; 19669120595106142400]; StrE false 39 [1069985327624523235; 40045394571122333600]; StrE false 38 [497164899704323927; 55980688386582094400]; StrE false 38 [223724204866945767; 40191309773961942480]; StrE false 37 [97464010041045680; 84835818119349757120]; StrE false 37 [41087768938872198; 78901374305216074080]; StrE false 37 [16754235877986721; 83629686609893933120]; StrE false 36 [6605035298052457; 64700164913515877480]; StrE false 36 [2516203923067602; 91314348538482239040]; StrE false 35 [925773141506004; 84540184839630257760]; StrE false 35 [328779246516151; 25350719849588315840]; StrE false 35 [112637334454607; 37388672541062663760]; StrE false 34 [37201321471246; 47210937719983999040]; StrE false 34 [11836784104487; 51385298365449454240]; StrE false 33 [3625681617590; 77000902202029562560]; StrE false 33 [1068281190897; 28044908684526567540]; StrE false 32 [302522107156; 75198558211547346560]; StrE false 31 [82264783525; 8168028987350594240]; StrE false 31 [21460378310; 89087311909743633280]; StrE false 30 [5365094577; 72271827977435908320]; StrE false 30 [1283954257; 91654796439044490880]; StrE false 29 [293786143; 76056605964866112320]; StrE false 28 [64188569; 22499762647785873280]; StrE false 28 [13372618; 58854117218288723600]; StrE false 27 [2652420; 21590899282966358400]; StrE false 26 [500046; 43414677733673985600]; StrE false 25 [89439; 19960348862933558400]; StrE false 25 [15146; 96122317146141973600]; StrE false 24 [2423; 51379570743382715776]; StrE false 23 [365; 45049300350192631744]; StrE false 22 [51; 79613286663806829696]; StrE false 21 [6; 87917389635036844569]; StrE false 20 [85323087086516197776]; StrE false 19 [9844971586905715128]; IntE 1052134368066259632; IntE 103619293824707388; IntE 9349109217266832; IntE 767464189477128; IntE 56849199220528; IntE 3762079360182; IntE 219683466288; IntE 11143364232; IntE 481008528; IntE 17178876; IntE 487344; IntE 10296; IntE 144; IntE 1];
[IntE 1; IntE 145; IntE 10440; IntE 497640; IntE 17666220; IntE 498187404; IntE 11624372760; IntE 230826830520; IntE 3981762826470; IntE 60611278580710; IntE 824313388697656; IntE 10116573406743960; IntE 112968403041974220; IntE 1155753661890967020; StrE false 20 [10897105954971974760]; StrE false 20 [95168058673421912904]; StrE false 21 [7; 73240476721553042345]; StrE false 22 [58; 67530676298843674265]; StrE false 23 [417; 24662587013999461440]; StrE false 24 [2788; 96428871093575347520]; StrE false 25 [17570; 47501887889524689376]; StrE false 26 [104586; 16082666009075532000]; StrE false 26 [589485; 63375026596607544000]; StrE false 27 [3152466; 65005577016640344000]; StrE false 28 [16025038; 80445016501255082000]; StrE false 28 [77561187; 81353879866074596880]; StrE false 29 [357974712; 98556368612651985600]; StrE false 30 [1577740401; 67711402403910603200]; StrE false 30 [6649048835; 63926624416480399200]; StrE false 31 [26825472888; 61359139887179541600]; StrE false 32 [103725161835; 97255340897094227520]; StrE false 32 [384786890681; 83366587198897940800]; StrE false 33 [1370803298054; 3243466896073914100]; StrE false 33 [4693962808488; 5045810886556130100]; StrE false 34 [15462465722078; 28386200567479016800]; StrE false 34 [49038105575733; 98596236085433453280]; StrE false 35 [149838655925853; 84599610261046662800]; StrE false 35 [441416580970758; 62739392390650979600]; StrE false 36 [1254552388022156; 9890904689218573600]; StrE false 36 [3441977064573607; 75854533378112496800]; StrE false 36 [9121239221120060; 56014513451998116520]; StrE false 37 [23359271176039179; 48329851523409810600]; StrE false 37 [57842004816858920; 62531060915110007200]; StrE false 38 [138551778979917879; 63737192424565831200]; StrE false 38 [321188214907991448; 25027127893311699600]; StrE false 38 [720889104571269694; 96171998160544036880]; StrE false 39 [1567150227328847162; 96026082957704428000]; StrE false 39 [3301018563947997215; 59714515166228476000]; StrE false 39 [6739579568060494315; 17750468464383138500]; StrE false 40 [13341616695956488746; 37179498796840090500]; StrE false 40 [25615904056236458393; 3384637689932973760]; StrE false 40 [47715899712597324457; 61206678049875147200]; StrE false 40 [86255664865079778827; 22181302628620458400]; StrE false 41 [1; 51354279857592819451; 54016248008711370400]; StrE false 41 [2; 57862847164787766472; 99435089200026779200]; StrE false 41 [4; 26645801672648849982; 59065329403680671040]; StrE false 41 [6; 85680752688185651757; 73497850827343935600]; StrE false 42 [10; 70624333144710929937; 51601907432168601200]; StrE false 42 [16; 24395539943699341974; 16223583690186843200]; StrE false 42 [23; 95295118222065131385; 62905962390614497600]; StrE false 42 [34; 33256336118293354986; 6831879426547446560]; StrE false 42 [47; 84045714263195658587; 14437864774697261600]; StrE false 42 [64; 81610322550136053569; 67948074856041451200]; StrE false 42 [85; 39264393200972895972; 75233177984943499200]; StrE false 43 [109; 40932503788746522965; 8892509293208858350]; StrE false 43 [136; 34085120105976436310; 34158357734614115790]; StrE false 43 [165; 26163781946638104618; 59585888163168625200]; StrE false 43 [194; 86073713041558362162; 22496793505825692400]; StrE false 43 [223; 51672788488846356597; 84628674903741235400]; StrE false 43 [249; 43171082806393760261; 36469680689682248200]; StrE false 43 [270; 81157175618370368283; 76738510463083583760]; StrE false 43 [286; 6856171427856022834; 96554764573679842000]; StrE false 43 [294; 1491065078629801247; 4792396922948726500]; StrE false 43 [294; 1491065078629801247; 4792396922948726500]; StrE false 43 [286; 6856171427856022834; 96554764573679842000]; StrE false 43 [270; 81157175618370368283; 76738510463083583760]; StrE false 43 [249; 43171082806393760261; 36469680689682248200]; StrE false 43 [223; 51672788488846356597; 84628674903741235400]; StrE false 43 [194; 86073713041558362162; 22496793505825692400]; StrE false 43 [165; 26163781946638104618; 59585888163168625200]; StrE false 43 [136; 34085120105976436310; 34158357734614115790]; StrE false 43 [109; 40932503788746522965; 8892509293208858350]; StrE false 42 [85; 39264393200972895972; 75233177984943499200]; StrE false 42 [64; 81610322550136053569; 67948074856041451200]; StrE false 42 [47; 84045714263195658587; 14437864774697261600]; StrE false 42 [34; 33256336118293354986; 6831879426547446560]; StrE false 42 [23; 95295118222065131385; 62905962390614497600]; StrE false 42 [16; 24395539943699341974; 16223583690186843200]; StrE false 42 [10; 70624333144710929937; 51601907432168601200]; StrE false 41 [6; 85680752688185651757; 73497850827343935600]; StrE false 41 [4; 26645801672648849982; 59065329403680671040]; StrE false 41 [2; 57862847164787766472; 99435089200026779200]; StrE false 41 [1; 51354279857592819451; 54016248008711370400]; StrE false 40 [86255664865079778827; 22181302628620458400]; StrE false 40 [47715899712597324457; 61206678049875147200]; StrE false 40 [25615904056236458393; 3384637689932973760]; StrE false 40 [13341616695956488746; 37179498796840090500]; StrE false 39 [6739579568060494315; 17750468464383138500]; StrE false 39 [3301018563947997215; 59714515166228476000]; StrE false 39 [1567150227328847162; 96026082957704428000]; StrE false 38 [720889104571269694; 96171998160544036880]; StrE false 38 [321188214907991448; 25027127893311699600]; StrE false 38 [138551778979917879; 63737192424565831200]; StrE false 37 [57842004816858920; 62531060915110007200]; StrE false 37 [23359271176039179; 48329851523409810600]; StrE false 36 [9121239221120060; 56014513451998116520]; StrE false 36 [3441977064573607; 75854533378112496800]; StrE false 36 [1254552388022156; 9890904689218573600]; StrE false 35 [441416580970758; 62739392390650979600]; StrE false 35 [149838655925853; 84599610261046662800]; StrE false 34 [49038105575733; 98596236085433453280]; StrE false 34 [15462465722078; 28386200567479016800]; StrE false 33 [4693962808488; 5045810886556130100]; StrE false 33 [1370803298054; 3243466896073914100]; StrE false 32 [384786890681; 83366587198897940800]; StrE false 32 [103725161835; 97255340897094227520]; StrE false 31 [26825472888; 61359139887179541600]; StrE false 30 [6649048835; 63926624416480399200]; StrE false 30 [1577740401; 67711402403910603200]; StrE false 29 [357974712; 98556368612651985600]; StrE false 28 [77561187; 81353879866074596880]; StrE false 28 [16025038; 80445016501255082000]; StrE false 27 [3152466; 65005577016640344000]; StrE false 26 [589485; 63375026596607544000]; StrE false 26 [104586; 16082666009075532000]; StrE false 25 [17570; 47501887889524689376]; StrE false 24 [2788; 96428871093575347520]; StrE false 23 [417; 24662587013999461440]; StrE false 22 [58; 67530676298843674265]; StrE false 21 [7; 73240476721553042345]; StrE false 20 [95168058673421912904]; StrE false 20 [10897105954971974760]; IntE 1155753661890967020; IntE 112968403041974220; IntE 10116573406743960; IntE 824313388697656; IntE 60611278580710; IntE 3981762826470; IntE 230826830520; IntE 11624372760; IntE 498187404; IntE 17666220; IntE 497640; IntE 10440; IntE 145; IntE 1];
[IntE 1; IntE 146; IntE 10585; IntE 508080; IntE 18163860; IntE 515853624; IntE 12122560164; IntE 242451203280; IntE 4212589656990; IntE 64593041407180; IntE 884924667278366; IntE 10940886795441616; IntE 123084976448718180; IntE 1268722064932941240; StrE false 20 [12052859616862941780]; StrE false 21 [1; 6065164628393887664]; StrE false 21 [8; 68408535394974955249]; StrE false 22 [66; 40771153020396716610]; StrE false 23 [475; 92193263312843135705]; StrE false 24 [3206; 21091458107574808960]; StrE false 25 [20359; 43930758983100036896]; StrE false 26 [122156; 63584553898600221376]; StrE false 26 [694071; 79457692605683076000]; StrE false 27 [3741952; 28380603613247888000]; StrE false 28 [19177505; 45450593517895426000]; StrE false 28 [93586226; 61798896367329678880]; StrE false 29 [435535900; 79910248478726582480]; StrE false 30 [1935715114; 66267771016562588800]; StrE false 30 [8226789237; 31638026820391002400]; StrE false 31 [33474521724; 25285764303659940800]; StrE false 32 [130550634724; 58614480784273769120]; StrE false 32 [488512052517; 80621928095992168320]; StrE false 33 [1755590188735; 86610054094971854900]; StrE false 33 [6064766106542; 8289277782630044200]; StrE false 34 [20156428530566; 33432011454035146900]; StrE false 34 [64500571297812; 26982436652912470080]; StrE false 35 [198876761501587; 83195846346480116080]; StrE false 35 [591255236896612; 47339002651697642400]; StrE false 36 [1695968968992914; 72630297079869553200]; StrE false 36 [4696529452595763; 85745438067331070400]; StrE false 37 [12563216285693668; 31869046830110613320]; StrE false 37 [32480510397159240; 4344364975407927120]; StrE false 37 [81201275992898100; 10860912438519817800]; StrE false 38 [196393783796776800; 26268253339675838400]; StrE false 38 [459739993887909327; 88764320317877530800]; StrE false 39 [1042077319479261143; 21199126053855736480]; StrE false 39 [2288039331900116857; 92198081118248464880]; StrE false 39 [4868168791276844378; 55740598123932904000]; StrE false 40 [10040598132008491530; 77464983630611614500]; StrE false 40 [20081196264016983061; 54929967261223229000]; StrE false 40 [38957520752192947139; 40564136486773064260]; StrE false 40 [73331803768833782850; 64591315739808120960]; StrE false 41 [1; 33971564577677103284; 83387980678495605600]; StrE false 41 [2; 37609944722672598278; 76197550637331828800]; StrE false 41 [4; 9217127022380585924; 53451337208738149600]; StrE false 41 [6; 84508648837436616455; 58500418603707450240]; StrE false 42 [11; 12326554360834501740; 32563180231024606640]; StrE false 42 [17; 56305085832896581695; 25099758259512536800]; StrE false 42 [26; 95019873088410271911; 67825491122355444400]; StrE false 42 [40; 19690658165764473359; 79129546080801340800]; StrE false 42 [58; 28551454340358486371; 69737841817161944160]; StrE false 42 [82; 17302050381489013573; 21269744201244708160]; StrE false 43 [112; 65656036813331712156; 82385939630738712800]; StrE false 43 [150; 20874715751108949542; 43181252840984950400]; StrE false 43 [194; 80196896989719418937; 84125687278152357550]; StrE false 43 [245; 75017623894722959275; 43050867027822974140]; StrE false 43 [301; 60248902052614540928; 93744245897782740990]; StrE false 43 [360; 12237494988196466780; 82082681668994317600]; StrE false 43 [418; 37746501530404718760; 7125468409566927800]; StrE false 43 [472; 94843871295240116859; 21098355593423483600]; StrE false 43 [520; 24328258424764128545; 13208191152765831960]; StrE false 43 [556; 88013347046226391118; 73293275036763425760]; StrE false 43 [580; 8347236506485824082; 1347161496628568500]; StrE false 43 [588; 2982130157259602494; 9584793845897453000]; StrE false 43 [580; 8347236506485824082; 1347161496628568500]; StrE false 43 [556; 88013347046226391118; 73293275036763425760]; StrE false 43 [520; 24328258424764128545; 13208191152765831960]; StrE false 43 [472; 94843871295240116859; 21098355593423483600]; StrE false 43 [418; 37746501530404718760; 7125468409566927800]; StrE false 43 [360; 12237494988196466780; 82082681668994317600]; StrE false 43 [301; 60248902052614540928; 93744245897782740990]; StrE false 43 [245; 75017623894722959275; 43050867027822974140]; StrE false 43 [194; 80196896989719418937; 84125687278152357550]; StrE false 43 [150; 20874715751108949542; 43181252840984950400]; StrE false 43 [112; 65656036813331712156; 82385939630738712800]; StrE false 42 [82; 17302050381489013573; 21269744201244708160]; StrE false 42 [58; 28551454340358486371; 69737841817161944160]; StrE false 42 [40; 19690658165764473359; 79129546080801340800]; StrE false 42 [26; 95019873088410271911; 67825491122355444400]; StrE false 42 [17; 56305085832896581695; 25099758259512536800]; StrE false 42 [11; 12326554360834501740; 32563180231024606640]; StrE false 41 [6; 84508648837436616455; 58500418603707450240]; StrE false 41 [4; 9217127022380585924; 53451337208738149600]; StrE false 41 [2; 37609944722672598278; 76197550637331828800]; StrE false 41 [1; 33971564577677103284; 83387980678495605600]; StrE false 40 [73331803768833782850; 64591315739808120960]; StrE false 40 [38957520752192947139; 40564136486773064260]; StrE false 40 [20081196264016983061; 54929967261223229000]; StrE false 40 [10040598132008491530; 77464983630611614500]; StrE false 39 [4868168791276844378; 55740598123932904000]; StrE false 39 [2288039331900116857; 92198081118248464880]; StrE false 39 [1042077319479261143; 21199126053855736480]; StrE false 38 [459739993887909327; 88764320317877530800]; StrE false 38 [196393783796776800; 26268253339675838400]; StrE false 37 [81201275992898100; 10860912438519817800]; StrE false 37 [32480510397159240; 4344364975407927120]; StrE false 37 [12563216285693668; 31869046830110613320]; StrE false 36 [4696529452595763; 85745438067331070400]; StrE false 36 [1695968968992914; 72630297079869553200]; StrE false 35 [591255236896612; 47339002651697642400]; StrE false 35 [198876761501587; 83195846346480116080]; StrE false 34 [64500571297812; 26982436652912470080]; StrE false 34 [20156428530566; 33432011454035146900]; StrE false 33 [6064766106542; 8289277782630044200]; StrE false 33 [1755590188735; 86610054094971854900]; StrE false 32 [488512052517; 80621928095992168320]; StrE false 32 [130550634724; 58614480784273769120]; StrE false 31 [33474521724; 25285764303659940800]; StrE false 30 [8226789237; 31638026820391002400]; StrE false 30 [1935715114; 66267771016562588800]; StrE false 29 [435535900; 79910248478726582480]; StrE false 28 [93586226; 61798896367329678880]; StrE false 28 [19177505; 45450593517895426000]; StrE false 27 [3741952; 28380603613247888000]; StrE false 26 [694071; 79457692605683076000]; StrE false 26 [122156; 63584553898600221376]; StrE false 25 [20359; 43930758983100036896]; StrE false 24 [3206; 21091458107574808960]; StrE false 23 [475; 92193263312843135705]; StrE false 22 [66; 40771153020396716610]; StrE false 21 [8; 68408535394974955249]; StrE false 21 [1; 6065164628393887664]; StrE false 20 [12052859616862941780]; IntE 1268722064932941240; IntE 123084976448718180; IntE 10940886795441616; IntE 884924667278366; IntE 64593041407180; IntE 4212589656990; IntE 242451203280; IntE 12122560164; IntE 515853624; IntE 18163860; IntE 508080; IntE 10585; IntE 146; IntE 1];
[IntE 1; IntE 147; IntE 10731; IntE 518665; IntE 18671940; IntE 534017484; IntE 12638413788; IntE 254573763444; IntE 4455040860270; IntE 68805631064170; IntE 949517708685546; IntE 11825811462719982; IntE 134025863244159796; IntE 1391807041381659420; StrE false 20 [13321581681795883020]; StrE false 21 [1; 18118024245256829444]; StrE false 21 [9; 74473700023368842913]; StrE false 22 [75; 9179688415371671859]; StrE false 23 [542; 32964416333239852315]; StrE false 24 [3682; 13284721420417944665]; StrE false 25 [23565; 65022217090674845856]; StrE false 26 [142516; 7515312881700258272]; StrE false 26 [816228; 43042246504283297376]; StrE false 27 [4436024; 7838296218930964000]; StrE false 28 [22919457; 73831197131143314000]; StrE false 29 [112763732; 7249489885225104880]; StrE false 29 [529122127; 41709144846056261360]; StrE false 30 [2371251015; 46178019495289171280]; StrE false 31 [10162504351; 97905797836953591200]; StrE false 31 [41701310961; 56923791124050943200]; StrE false 32 [164025156448; 83900245087933709920]; StrE false 32 [619062687242; 39236408880265937440]; StrE false 33 [2244102241253; 67231982190964023220]; StrE false 33 [7820356295277; 94899331877601899100]; StrE false 34 [26221194637108; 41721289236665191100]; StrE false 34 [84656999828378; 60414448106947616980]; StrE false 35 [263377332799400; 10178282999392586160]; StrE false 35 [790131998398200; 30534848998177758480]; StrE false 36 [2287224205889527; 19969299731567195600]; StrE false 36 [6392498421588678; 58375735147200623600]; StrE false 37 [17259745738289432; 17614484897441683720]; StrE false 37 [45043726682852908; 36213411805518540440]; StrE false 38 [113681786390057340; 15205277413927744920]; StrE false 38 [277595059789674900; 37129165778195656200]; StrE false 38 [656133777684686128; 15032573657553369200]; StrE false 39 [1501817313367170471; 9963446371733267280]; StrE false 39 [3330116651379378001; 13397207172104201360]; StrE false 39 [7156208123176961236; 47938679242181368880]; StrE false 40 [14908766923285335909; 33205581754544518500]; StrE false 40 [30121794396025474592; 32394950891834843500]; StrE false 40 [59038717016209930200; 95494103747996293260]; StrE false 41 [1; 12289324521026729990; 5155452226581185220]; StrE false 41 [2; 7303368346510886135; 47979296418303726560]; StrE false 41 [3; 71581509300349701563; 59585531315827434400]; StrE false 41 [6; 46827071745053184203; 29648887846069978400]; StrE false 42 [10; 93725775859817202380; 11951755812445599840]; StrE false 42 [17; 96835203198271118195; 91063598834732056880]; StrE false 42 [28; 68631640193731083435; 57662938490537143440]; StrE false 42 [44; 51324958921306853606; 92925249381867981200]; StrE false 42 [67; 14710531254174745271; 46955037203156785200]; StrE false 42 [98; 48242112506122959731; 48867387897963284960]; StrE false 43 [140; 45853504721847499944; 91007586018406652320]; StrE false 43 [194; 82958087194820725730; 3655683831983420960]; StrE false 43 [262; 86530752564440661699; 25567192471723663200]; StrE false 43 [345; 1071612740828368480; 27306940119137307950]; StrE false 43 [440; 55214520884442378213; 27176554305975331690]; StrE false 43 [547; 35266525947337500204; 36795112925605715130]; StrE false 43 [661; 72486397040811007709; 75826927566777058590]; StrE false 43 [778; 49983996518601185540; 89208150078561245400]; StrE false 43 [891; 32590372825644835619; 28223824002990411400]; StrE false 43 [993; 19172129720004245404; 34306546746189315560]; StrE false 44 [1077; 12341605470990519663; 86501466189529257720]; StrE false 44 [1136; 96360583552712215200; 74640436533391994260]; StrE false 44 [1168; 11329366663745426576; 10931955342526021500]; StrE false 44 [1168; 11329366663745426576; 10931955342526021500]; StrE false 44 [1136; 96360583552712215200; 74640436533391994260]; StrE false 44 [1077; 12341605470990519663; 86501466189529257720]; StrE false 43 [993; 19172129720004245404; 34306546746189315560]; StrE false 43 [891; 32590372825644835619; 28223824002990411400]; StrE false 43 [778; 49983996518601185540; 89208150078561245400]; StrE false 43 [661; 72486397040811007709; 75826927566777058590]; StrE false 43 [547; 35266525947337500204; 36795112925605715130]; StrE false 43 [440; 55214520884442378213; 27176554305975331690]; StrE false 43 [345; 1071612740828368480; 27306940119137307950]; StrE false 43 [262; 86530752564440661699; 25567192471723663200]; StrE false 43 [194; 82958087194820725730; 3655683831983420960]; StrE false 43 [140; 45853504721847499944; 91007586018406652320]; StrE false 42 [98; 48242112506122959731; 48867387897963284960]; StrE false 42 [67; 14710531254174745271; 46955037203156785200]; StrE false 42 [44; 51324958921306853606; 92925249381867981200]; StrE false 42 [28; 68631640193731083435; 57662938490537143440]; StrE false 42 [17; 96835203198271118195; 91063598834732056880]; StrE false 42 [10; 93725775859817202380; 11951755812445599840]; StrE false 41 [6; 46827071745053184203; 29648887846069978400]; StrE false 41 [3; 71581509300349701563; 59585531315827434400]; StrE false 41 [2; 7303368346510886135; 47979296418303726560]; StrE false 41 [1; 12289324521026729990; 5155452226581185220]; StrE false 40 [59038717016209930200; 95494103747996293260]; StrE false 40 [30121794396025474592; 32394950891834843500]; StrE false 40 [14908766923285335909; 33205581754544518500]; StrE false 39 [7156208123176961236; 47938679242181368880]; StrE false 39 [3330116651379378001; 13397207172104201360]; StrE false 39 [1501817313367170471; 9963446371733267280]; StrE false 38 [656133777684686128; 15032573657553369200]; StrE false 38 [277595059789674900; 37129165778195656200]; StrE false 38 [113681786390057340; 15205277413927744920]; StrE false 37 [45043726682852908; 36213411805518540440]; StrE false 37 [17259745738289432; 17614484897441683720]; StrE false 36 [6392498421588678; 58375735147200623600]; StrE false 36 [2287224205889527; 19969299731567195600]; StrE false 35 [790131998398200; 30534848998177758480]; StrE false 35 [263377332799400; 10178282999392586160]; StrE false 34 [84656999828378; 60414448106947616980]; StrE false 34 [26221194637108; 41721289236665191100]; StrE false 33 [7820356295277; 94899331877601899100]; StrE false 33 [2244102241253; 67231982190964023220]; StrE false 32 [619062687242; 39236408880265937440]; StrE false 32 [164025156448; 83900245087933709920]; StrE false 31 [41701310961; 56923791124050943200]; StrE false 31 [10162504351; 97905797836953591200]; StrE false 30 [2371251015; 46178019495289171280]; StrE false 29 [529122127; 41709144846056261360]; StrE false 29 [112763732; 7249489885225104880]; StrE false 28 [22919457; 73831197131143314000]; StrE false 27 [4436024; 7838296218930964000]; StrE false 26 [816228; 43042246504283297376]; StrE false 26 [142516; 7515312881700258272]; StrE false 25 [23565; 65022217090674845856]; StrE false 24 [3682; 13284721420417944665]; StrE false 23 [542; 32964416333239852315]; StrE false 22 [75; 9179688415371671859]; StrE false 21 [9; 74473700023368842913]; StrE false 21 [1; 18118024245256829444]; StrE false 20 [13321581681795883020]; IntE 1391807041381659420; IntE 134025863244159796; IntE 11825811462719982; IntE 949517708685546; IntE 68805631064170; IntE 4455040860270; IntE 254573763444; IntE 12638413788; IntE 534017484; IntE 18671940; IntE 518665; IntE 10731; IntE 147; IntE 1];
[IntE 1; IntE 148; IntE 10878; IntE 529396; IntE 19190605; IntE 552689424; IntE 13172431272; IntE 267212177232; IntE 4709614623714; IntE 73260671924440; IntE 1018323339749716; IntE 12775329171405528; IntE 145851674706879778; IntE 1525832904625819216; StrE false 20 [14713388723177542440]; StrE false 21 [1; 31439605927052712464]; StrE false 22 [10; 92591724268625672357]; StrE false 22 [84; 83653388438740514772]; StrE false 23 [617; 42144104748611524174]; StrE false 24 [4224; 46249137753657796980]; StrE false 25 [27247; 78306938511092790521]; StrE false 26 [166081; 72537529972375104128]; StrE false 26 [958744; 50557559385983555648]; StrE false 27 [5252252; 50880542723214261376]; StrE false 28 [27355481; 81669493350074278000]; StrE false 29 [135683189; 81080687016368418880]; StrE false 29 [641885859; 48958634731281366240]; StrE false 30 [2900373142; 87887164341345432640]; StrE false 31 [12533755367; 44083817332242762480]; StrE false 31 [51863815313; 54829588961004534400]; StrE false 32 [205726467410; 40824036211984653120]; StrE false 32 [783087843691; 23136653968199647360]; StrE false 33 [2863164928496; 6468391071229960660]; StrE false 34 [10064458536531; 62131314068565922320]; StrE false 34 [34041550932386; 36620621114267090200]; StrE false 35 [110878194465487; 2135737343612808080]; StrE false 35 [348034332627778; 70592731106340203140]; StrE false 36 [1053509331197600; 40713131997570344640]; StrE false 36 [3077356204287727; 50504148729744954080]; StrE false 36 [8679722627478205; 78345034878767819200]; StrE false 37 [23652244159878110; 75990220044642307320]; StrE false 37 [62303472421142340; 53827896702960224160]; StrE false 38 [158725513072910248; 51418689219446285360]; StrE false 38 [391276846179732240; 52334443192123401120]; StrE false 38 [933728837474361028; 52161739435749025400]; StrE false 39 [2157951091051856599; 24996020029286636480]; StrE false 39 [4831933964746548472; 23360653543837468640]; StrE false 40 [10486324774556339237; 61335886414285570240]; StrE false 40 [22064975046462297145; 81144260996725887380]; StrE false 40 [45030561319310810501; 65600532646379362000]; StrE false 40 [89160511412235404793; 27889054639831136760]; StrE false 41 [1; 71328041537236660191; 649555974577478480]; StrE false 41 [3; 19592692867537616125; 53134748644884911780]; StrE false 41 [5; 78884877646860587699; 7564827734131160960]; StrE false 42 [10; 18408581045402885766; 89234419161897412800]; StrE false 42 [17; 40552847604870386583; 41600643658515578240]; StrE false 42 [28; 90560979058088320576; 3015354647177656720]; StrE false 42 [46; 65466843392002201631; 48726537325269200320]; StrE false 42 [73; 19956599115037937042; 50588187872405124640]; StrE false 43 [111; 66035490175481598878; 39880286585024766400]; StrE false 43 [165; 62952643760297705002; 95822425101120070160]; StrE false 43 [238; 94095617227970459676; 39874973916369937280]; StrE false 43 [335; 28811591916668225674; 94663269850390073280]; StrE false 43 [457; 69488839759261387429; 29222876303707084160]; StrE false 43 [607; 87602365305269030179; 52874132590860971150]; StrE false 43 [785; 56286133625270746693; 54483494425112639640]; StrE false 43 [987; 90481046831779878417; 63971667231581046820]; StrE false 44 [1209; 7752922988148507914; 12622040492382773720]; StrE false 44 [1440; 22470393559412193250; 65035077645338303990]; StrE false 44 [1669; 82574369344246021160; 17431974081551656800]; StrE false 44 [1884; 51762502545649081023; 62530370749179726960]; StrE false 44 [2070; 31513735190994765068; 20808012935718573280]; StrE false 44 [2214; 8702189023702734864; 61141902722921251980]; StrE false 44 [2305; 7689950216457641776; 85572391875918015760]; StrE false 44 [2336; 22658733327490853152; 21863910685052043000]; StrE false 44 [2305; 7689950216457641776; 85572391875918015760]; StrE false 44 [2214; 8702189023702734864; 61141902722921251980]; StrE false 44 [2070; 31513735190994765068; 20808012935718573280]; StrE false 44 [1884; 51762502545649081023; 62530370749179726960]; StrE false 44 [1669; 82574369344246021160; 17431974081551656800]; StrE false 44 [1440; 22470393559412193250; 65035077645338303990]; StrE false 44 [1209; 7752922988148507914; 12622040492382773720]; StrE false 43 [987; 90481046831779878417; 63971667231581046820]; StrE false 43 [785; 56286133625270746693; 54483494425112639640]; StrE false 43 [607; 87602365305269030179; 52874132590860971150]; StrE false 43 [457; 69488839759261387429; 29222876303707084160]; StrE false 43 [335; 28811591916668225674; 94663269850390073280]; StrE false 43 [238; 94095617227970459676; 39874973916369937280]; StrE false 43 [165; 62952643760297705002; 95822425101120070160]; StrE false 43 [111; 66035490175481598878; 39880286585024766400]; StrE false 42 [73; 19956599115037937042; 50588187872405124640]; StrE false 42 [46; 65466843392002201631; 48726537325269200320]; StrE false 42 [28; 90560979058088320576; 3015354647177656720]; StrE false 42 [17; 40552847604870386583; 41600643658515578240]; StrE false 42 [10; 18408581045402885766; 89234419161897412800]; StrE false 41 [5; 78884877646860587699; 7564827734131160960]; StrE false 41 [3; 19592692867537616125; 53134748644884911780]; StrE false 41 [1; 71328041537236660191; 649555974577478480]; StrE false 40 [89160511412235404793; 27889054639831136760]; StrE false 40 [45030561319310810501; 65600532646379362000]; StrE false 40 [22064975046462297145; 81144260996725887380]; StrE false 40 [10486324774556339237; 61335886414285570240]; StrE false 39 [4831933964746548472; 23360653543837468640]; StrE false 39 [2157951091051856599; 24996020029286636480]; StrE false 38 [933728837474361028; 52161739435749025400]; StrE false 38 [391276846179732240; 52334443192123401120]; StrE false 38 [158725513072910248; 51418689219446285360]; StrE false 37 [62303472421142340; 53827896702960224160]; StrE false 37 [23652244159878110; 75990220044642307320]; StrE false 36 [8679722627478205; 78345034878767819200]; StrE false 36 [3077356204287727; 50504148729744954080]; StrE false 36 [1053509331197600; 40713131997570344640]; StrE false 35 [348034332627778; 70592731106340203140]; StrE false 35 [110878194465487; 2135737343612808080]; StrE false 34 [34041550932386; 36620621114267090200]; StrE false 34 [10064458536531; 62131314068565922320]; StrE false 33 [2863164928496; 6468391071229960660]; StrE false 32 [783087843691; 23136653968199647360]; StrE false 32 [205726467410; 40824036211984653120]; StrE false 31 [51863815313; 54829588961004534400]; StrE false 31 [12533755367; 44083817332242762480]; StrE false 30 [2900373142; 87887164341345432640]; StrE false 29 [641885859; 48958634731281366240]; StrE false 29 [135683189; 81080687016368418880]; StrE false 28 [27355481; 81669493350074278000]; StrE false 27 [5252252; 50880542723214261376]; StrE false 26 [958744; 50557559385983555648]; StrE false 26 [166081; 72537529972375104128]; StrE false 25 [27247; 78306938511092790521]; StrE false 24 [4224; 46249137753657796980]; StrE false 23 [617; 42144104748611524174]; StrE false 22 [84; 83653388438740514772]; StrE false 22 [10; 92591724268625672357]; StrE false 21 [1; 31439605927052712464]; StrE false 20 [14713388723177542440]; IntE 1525832904625819216; IntE 145851674706879778; IntE 12775329171405528; IntE 1018323339749716; IntE 73260671924440; IntE 4709614623714; IntE 267212177232; IntE 13172431272; IntE 552689424; IntE 19190605; IntE 529396; IntE 10878; IntE 148; IntE 1];
[IntE 1; IntE 149; IntE 11026; IntE 540274; IntE 19720001; IntE 571880029; IntE 13725120696; IntE 280384608504; IntE 4976826800946; IntE 77970286548154; IntE 1091584011674156; IntE 13793652511155244; IntE 158627003878285306; IntE 1671684579332698994; StrE false 20 [16239221627803361656]; StrE false 21 [1; 46152994650230254904]; StrE false 22 [12; 24031330195678384821]; StrE false 22 [95; 76245112707366187129]; StrE false 23 [702; 25797493187352038946]; StrE false 24 [4841; 88393242502269321154]; StrE false 25 [31472; 24556076264750587501]; StrE false 26 [193329; 50844468483467894649]; StrE false 27 [1124826; 23095089358358659776]; StrE false 27 [6210997; 1438102109197817024]; StrE false 28 [32607734; 32550036073288539376]; StrE false 29 [163038671; 62750180366442696880]; StrE false 29 [777569049; 30039321747649785120]; StrE false 30 [3542259002; 36845799072626798880]; StrE false 31 [15434128510; 31970981673588195120]; StrE false 31 [64397570680; 98913406293247296880]; StrE false 32 [257590282723; 95653625172989187520]; StrE false 32 [988814311101; 63960690180184300480]; StrE false 33 [3646252772187; 29605045039429608020]; StrE false 34 [12927623465027; 68599705139795882980]; StrE false 34 [44106009468917; 98751935182833012520]; StrE false 35 [144919745397873; 38756358457879898280]; StrE false 35 [458912527093265; 72728468449953011220]; StrE false 36 [1401543663825379; 11305863103910547780]; StrE false 36 [4130865535485327; 91217280727315298720]; StrE false 37 [11757078831765933; 28849183608512773280]; StrE false 37 [32331966787356316; 54335254923410126520]; StrE false 37 [85955716581020451; 29818116747602531480]; StrE false 38 [221028985494052589; 5246585922406509520]; StrE false 38 [550002359252642489; 3753132411569686480]; StrE false 39 [1325005683654093269; 4496182627872426520]; StrE false 39 [3091679928526217627; 77157759465035661880]; StrE false 39 [6989885055798405071; 48356673573124105120]; StrE false 40 [15318258739302887709; 84696539958123038880]; StrE false 40 [32551299821018636383; 42480147411011457620]; StrE false 40 [67095536365773107647; 46744793643105249380]; StrE false 41 [1; 34191072731546215294; 93489587286210498760]; StrE false 41 [2; 60488552949472064984; 28538610614408615240]; StrE false 41 [4; 90920734404774276316; 53784304619462390260]; StrE false 41 [8; 98477570514398203824; 60699576379016072740]; StrE false 42 [15; 97293458692263473465; 96799246896028573760]; StrE false 42 [27; 58961428650273272350; 30835062820412991040]; StrE false 42 [46; 31113826662958707159; 44615998305693234960]; StrE false 42 [75; 56027822450090522207; 51741891972446857040]; StrE false 43 [119; 85423442507040138673; 99314725197674324960]; StrE false 43 [184; 85992089290519535920; 90468474457429891040]; StrE false 43 [277; 28988133935779303881; 35702711686144836560]; StrE false 43 [404; 57048260988268164679; 35697399017490007440]; StrE false 43 [574; 22907209144638685351; 34538243766760010560]; StrE false 43 [792; 98300431675929613104; 23886146154097157440]; StrE false 44 [1065; 57091205064530417608; 82097008894568055310]; StrE false 44 [1393; 43888498930539776873; 7357627015973610790]; StrE false 44 [1773; 46767180457050625111; 18455161656693686460]; StrE false 44 [2196; 98233969819928386331; 76593707723963820540]; StrE false 44 [2649; 30223316547560701164; 77657118137721077710]; StrE false 44 [3110; 5044762903658214410; 82467051726889960790]; StrE false 44 [3554; 34336871889895102183; 79962344830731383760]; StrE false 44 [3954; 83276237736643846091; 83338383684898300240]; StrE false 44 [4284; 40215924214697499932; 81949915658639825260]; StrE false 44 [4519; 16392139240160376641; 46714294598839267740]; StrE false 44 [4641; 30348683543948494929; 7436302560970058760]; StrE false 44 [4641; 30348683543948494929; 7436302560970058760]; StrE false 44 [4519; 16392139240160376641; 46714294598839267740]; StrE false 44 [4284; 40215924214697499932; 81949915658639825260]; StrE false 44 [3954; 83276237736643846091; 83338383684898300240]; StrE false 44 [3554; 34336871889895102183; 79962344830731383760]; StrE false 44 [3110; 5044762903658214410; 82467051726889960790]; StrE false 44 [2649; 30223316547560701164; 77657118137721077710]; StrE false 44 [2196; 98233969819928386331; 76593707723963820540]; StrE false 44 [1773; 46767180457050625111; 18455161656693686460]; StrE false 44 [1393; 43888498930539776873; 7357627015973610790]; StrE false 44 [1065; 57091205064530417608; 82097008894568055310]; StrE false 43 [792; 98300431675929613104; 23886146154097157440]; StrE false 43 [574; 22907209144638685351; 34538243766760010560]; StrE false 43 [404; 57048260988268164679; 35697399017490007440]; StrE false 43 [277; 28988133935779303881; 35702711686144836560]; StrE false 43 [184; 85992089290519535920; 90468474457429891040]; StrE false 43 [119; 85423442507040138673; 99314725197674324960]; StrE false 42 [75; 56027822450090522207; 51741891972446857040]; StrE false 42 [46; 31113826662958707159; 44615998305693234960]; StrE false 42 [27; 58961428650273272350; 30835062820412991040]; StrE false 42 [15; 97293458692263473465; 96799246896028573760]; StrE false 41 [8; 98477570514398203824; 60699576379016072740]; StrE false 41 [4; 90920734404774276316; 53784304619462390260]; StrE false 41 [2; 60488552949472064984; 28538610614408615240]; StrE false 41 [1; 34191072731546215294; 93489587286210498760]; StrE false 40 [67095536365773107647; 46744793643105249380]; StrE false 40 [32551299821018636383; 42480147411011457620]; StrE false 40 [15318258739302887709; 84696539958123038880]; StrE false 39 [6989885055798405071; 48356673573124105120]; StrE false 39 [3091679928526217627; 77157759465035661880]; StrE false 39 [1325005683654093269; 4496182627872426520]; StrE false 38 [550002359252642489; 3753132411569686480]; StrE false 38 [221028985494052589; 5246585922406509520]; StrE false 37 [85955716581020451; 29818116747602531480]; StrE false 37 [32331966787356316; 54335254923410126520]; StrE false 37 [11757078831765933; 28849183608512773280]; StrE false 36 [4130865535485327; 91217280727315298720]; StrE false 36 [1401543663825379; 11305863103910547780]; StrE false 35 [458912527093265; 72728468449953011220]; StrE false 35 [144919745397873; 38756358457879898280]; StrE false 34 [44106009468917; 98751935182833012520]; StrE false 34 [12927623465027; 68599705139795882980]; StrE false 33 [3646252772187; 29605045039429608020]; StrE false 32 [988814311101; 63960690180184300480]; StrE false 32 [257590282723; 95653625172989187520]; StrE false 31 [64397570680; 98913406293247296880]; StrE false 31 [15434128510; 31970981673588195120]; StrE false 30 [3542259002; 36845799072626798880]; StrE false 29 [777569049; 30039321747649785120]; StrE false 29 [163038671; 62750180366442696880]; StrE false 28 [32607734; 32550036073288539376]; StrE false 27 [6210997; 1438102109197817024]; StrE false 27 [1124826; 23095089358358659776]; StrE false 26 [193329; 50844468483467894649]; StrE false 25 [31472; 24556076264750587501]; StrE false 24 [4841; 88393242502269321154]; StrE false 23 [702; 25797493187352038946]; StrE false 22 [95; 76245112707366187129]; StrE false 22 [12; 24031330195678384821]; StrE false 21 [1; 46152994650230254904]; StrE false 20 [16239221627803361656]; IntE 1671684579332698994; IntE 158627003878285306; IntE 13793652511155244; IntE 1091584011674156; IntE 77970286548154; IntE 4976826800946; IntE 280384608504; IntE 13725120696; IntE 571880029; IntE 19720001; IntE 540274; IntE 11026; IntE 149; IntE 1];
[IntE 1; IntE 150; IntE 11175; IntE 551300; IntE 20260275; IntE 591600030; IntE 14297000725; IntE 294109729200; IntE 5257211409450; IntE 82947113349100; IntE 1169554298222310; IntE 14885236522829400; IntE 172420656389440550; IntE 1830311583210984300; StrE false 20 [17910906207136060650]; StrE false 21 [1; 62392216278033616560]; StrE false 22 [13; 70184324845908639725]; StrE false 23 [108; 276442903044571950]; StrE false 23 [798; 2042605894718226075]; StrE false 24 [5544; 14190735689621360100]; StrE false 25 [36314; 12949318767019908655]; StrE false 26 [224801; 75400544748218482150]; StrE false 27 [1318155; 73939557841826554425]; StrE false 27 [7335823; 24533191467556476800]; StrE false 28 [38818731; 33988138182486356400]; StrE false 29 [195646405; 95300216439731236256]; StrE false 29 [940607720; 92789502114092482000]; StrE false 30 [4319828051; 66885120820276584000]; StrE false 31 [18976387512; 68816780746214994000]; StrE false 31 [79831699191; 30884387966835492000]; StrE false 32 [321987853404; 94567031466236484400]; StrE false 33 [1246404593825; 59614315353173488000]; StrE false 33 [4635067083288; 93565735219613908500]; StrE false 34 [16573876237214; 98204750179225491000]; StrE false 34 [57033632933945; 67351640322628895500]; StrE false 35 [189025754866791; 37508293640712910800]; StrE false 35 [603832272491139; 11484826907832909500]; StrE false 36 [1860456190918644; 84034331553863559000]; StrE false 36 [5532409199310707; 2523143831225846500]; StrE false 37 [15887944367251261; 20066464335828072000]; StrE false 37 [44089045619122249; 83184438531922899800]; StrE false 38 [118287683368376767; 84153371671012658000]; StrE false 38 [306984702075073040; 35064702670009041000]; StrE false 38 [771031344746695078; 8999718333976196000]; StrE false 39 [1875008042906735758; 8249315039442113000]; StrE false 39 [4416685612180310896; 81653942092908088400]; StrE false 40 [10081564984324622699; 25514433038159767000]; StrE false 40 [22308143795101292781; 33053213531247144000]; StrE false 40 [47869558560321524093; 27176687369134496500]; StrE false 40 [99646836186791744030; 89224941054116707000]; StrE false 41 [2; 1286609097319322942; 40234380929315748140]; StrE false 41 [3; 94679625681018280279; 22028197900619114000]; StrE false 41 [7; 51409287354246341300; 82322915233871005500]; StrE false 42 [13; 89398304919172480141; 14483880998478463000]; StrE false 42 [24; 95771029206661677290; 57498823275044646500]; StrE false 42 [43; 56254887342536745816; 27634309716441564800]; StrE false 42 [73; 90075255313231979509; 75451061126106226000]; StrE false 43 [121; 87141649113049229366; 96357890278140092000]; StrE false 43 [195; 41451264957130660881; 51056617170121182000]; StrE false 43 [304; 71415531797559674594; 89783199655104216000]; StrE false 43 [462; 14980223226298839802; 26171186143574727600]; StrE false 43 [681; 86036394924047468560; 71400110703634844000]; StrE false 43 [978; 79955470132906850030; 70235642784250018000]; StrE false 44 [1367; 21207640820568298455; 58424389920857168000]; StrE false 44 [1858; 55391636740460030713; 5983155048665212750]; StrE false 44 [2459; 979703995070194481; 89454635910541666100]; StrE false 44 [3166; 90655679387590401984; 25812788672667297250]; StrE false 44 [3970; 45001150276979011442; 95048869380657507000]; StrE false 44 [4846; 28457286367489087496; 54250825861684898250]; StrE false 44 [5759; 35268079451218915575; 60124169864611038500]; StrE false 44 [6664; 39381634793553316594; 62429396557621344550]; StrE false 44 [7509; 17613109626538948275; 63300728515629684000]; StrE false 44 [8239; 23492161951341346024; 65288299343538125500]; StrE false 44 [8803; 56608063454857876574; 28664210257479093000]; StrE false 44 [9160; 46740822784108871570; 54150597159809326500]; StrE false 44 [9282; 60697367087896989858; 14872605121940117520]; StrE false 44 [9160; 46740822784108871570; 54150597159809326500]; StrE false 44 [8803; 56608063454857876574; 28664210257479093000]; StrE false 44 [8239; 23492161951341346024; 65288299343538125500]; StrE false 44 [7509; 17613109626538948275; 63300728515629684000]; StrE false 44 [6664; 39381634793553316594; 62429396557621344550]; StrE false 44 [5759; 35268079451218915575; 60124169864611038500]; StrE false 44 [4846; 28457286367489087496; 54250825861684898250]; StrE false 44 [3970; 45001150276979011442; 95048869380657507000]; StrE false 44 [3166; 90655679387590401984; 25812788672667297250]; StrE false 44 [2459; 979703995070194481; 89454635910541666100]; StrE false 44 [1858; 55391636740460030713; 5983155048665212750]; StrE false 44 [1367; 21207640820568298455; 58424389920857168000]; StrE false 43 [978; 79955470132906850030; 70235642784250018000]; StrE false 43 [681; 86036394924047468560; 71400110703634844000]; StrE false 43 [462; 14980223226298839802; 26171186143574727600]; StrE false 43 [304; 71415531797559674594; 89783199655104216000]; StrE false 43 [195; 41451264957130660881; 51056617170121182000]; StrE false 43 [121; 87141649113049229366; 96357890278140092000]; StrE false 42 [73; 90075255313231979509; 75451061126106226000]; StrE false 42 [43; 56254887342536745816; 27634309716441564800]; StrE false 42 [24; 95771029206661677290; 57498823275044646500]; StrE false 42 [13; 89398304919172480141; 14483880998478463000]; StrE false 41 [7; 51409287354246341300; 82322915233871005500]; StrE false 41 [3; 94679625681018280279; 22028197900619114000]; StrE false 41 [2; 1286609097319322942; 40234380929315748140]; StrE false 40 [99646836186791744030; 89224941054116707000]; StrE false 40 [47869558560321524093; 27176687369134496500]; StrE false 40 [22308143795101292781; 33053213531247144000]; StrE false 40 [10081564984324622699; 25514433038159767000]; StrE false 39 [4416685612180310896; 81653942092908088400]; StrE false 39 [1875008042906735758; 8249315039442113000]; StrE false 38 [771031344746695078; 8999718333976196000]; StrE false 38 [306984702075073040; 35064702670009041000]; StrE false 38 [118287683368376767; 84153371671012658000]; StrE false 37 [44089045619122249; 83184438531922899800]; StrE false 37 [15887944367251261; 20066464335828072000]; StrE false 36 [5532409199310707; 2523143831225846500]; StrE false 36 [1860456190918644; 84034331553863559000]; StrE false 35 [603832272491139; 11484826907832909500]; StrE false 35 [189025754866791; 37508293640712910800]; StrE false 34 [57033632933945; 67351640322628895500]; StrE false 34 [16573876237214; 98204750179225491000]; StrE false 33 [4635067083288; 93565735219613908500]; StrE false 33 [1246404593825; 59614315353173488000]; StrE false 32 [321987853404; 94567031466236484400]; StrE false 31 [79831699191; 30884387966835492000]; StrE false 31 [18976387512; 68816780746214994000]; StrE false 30 [4319828051; 66885120820276584000]; StrE false 29 [940607720; 92789502114092482000]; StrE false 29 [195646405; 95300216439731236256]; StrE false 28 [38818731; 33988138182486356400]; StrE false 27 [7335823; 24533191467556476800]; StrE false 27 [1318155; 73939557841826554425]; StrE false 26 [224801; 75400544748218482150]; StrE false 25 [36314; 12949318767019908655]; StrE false 24 [5544; 14190735689621360100]; StrE false 23 [798; 2042605894718226075]; StrE false 23 [108; 276442903044571950]; StrE false 22 [13; 70184324845908639725]; StrE false 21 [1; 62392216278033616560]; StrE false 20 [17910906207136060650]; IntE 1830311583210984300; IntE 172420656389440550; IntE 14885236522829400; IntE 1169554298222310; IntE 82947113349100; IntE 5257211409450; IntE 294109729200; IntE 14297000725; IntE 591600030; IntE 20260275; IntE 551300; IntE 11175; IntE 150; IntE 1];
[IntE 1; IntE 151; IntE 11325; IntE 562475; IntE 20811575; IntE 611860305; IntE 14888600755; IntE 308406729925; IntE 5551321138650; IntE 88204324758550; IntE 1252501411571410; IntE 16054790821051710; IntE 187305892912269950; IntE 2002732239600424850; StrE false 20 [19741217790347044950]; StrE false 21 [1; 80303122485169677210]; StrE false 22 [15; 32576541123942256285]; StrE false 23 [121; 70460767748953211675]; StrE false 23 [906; 2319048797762798025]; StrE false 24 [6342; 16233341584339586175]; StrE false 25 [41858; 27140054456641268755]; StrE false 26 [261115; 88349863515238390805]; StrE false 27 [1542957; 49340102590045036575]; StrE false 27 [8653978; 98472749309383031225]; StrE false 28 [46154554; 58521329650042833200]; StrE false 29 [234465137; 29288354622217592656]; StrE false 30 [1136254126; 88089718553823718256]; StrE false 30 [5260435772; 59674622934369066000]; StrE false 31 [23296215564; 35701901566491578000]; StrE false 31 [98808086703; 99701168713050486000]; StrE false 32 [401819552596; 25451419433071976400]; StrE false 33 [1568392447230; 54181346819409972400]; StrE false 33 [5881471677114; 53180050572787396500]; StrE false 34 [21208943320503; 91770485398839399500]; StrE false 34 [73607509171160; 65556390501854386500]; StrE false 35 [246059387800737; 4859933963341806300]; StrE false 35 [792858027357930; 48993120548545820300]; StrE false 36 [2464288463409783; 95519158461696468500]; StrE false 36 [7392865390229351; 86557475385089405500]; StrE false 37 [21420353566561968; 22589608167053918500]; StrE false 37 [59976989986373511; 3250902867750971800]; StrE false 38 [162376728987499017; 67337810202935557800]; StrE false 38 [425272385443449808; 19218074341021699000]; StrE false 39 [1078016046821768118; 44064421003985237000]; StrE false 39 [2646039387653430836; 17249033373418309000]; StrE false 39 [6291693655087046654; 89903257132350201400]; StrE false 40 [14498250596504933596; 7168375131067855400]; StrE false 40 [32389708779425915480; 58567646569406911000]; StrE false 40 [70177702355422816874; 60229900900381640500]; StrE false 41 [1; 47516394747113268124; 16401628423251203500]; StrE false 41 [3; 933445284111066973; 29459321983432455140]; StrE false 41 [5; 95966234778337603221; 62262578829934862140]; StrE false 42 [11; 46088913035264621580; 4351113134490119500]; StrE false 42 [21; 40807592273418821441; 96806796232349468500]; StrE false 42 [38; 85169334125834157431; 71982704273523109500]; StrE false 42 [68; 52025916549198423106; 85133132991486211300]; StrE false 43 [117; 46330142655768725326; 3085370842547790800]; StrE false 43 [195; 77216904426281208876; 71808951404246318000]; StrE false 43 [317; 28592914070179890248; 47414507448261274000]; StrE false 43 [500; 12866796754690335476; 40839816825225398000]; StrE false 43 [766; 86395755023858514397; 15954385798678943600]; StrE false 44 [1144; 1016618150346308362; 97571296847209571600]; StrE false 44 [1660; 65991865056954318591; 41635753487884862000]; StrE false 44 [2346; 1163110953475148486; 28660032705107186000]; StrE false 44 [3225; 76599277561028329168; 64407544969522380750]; StrE false 44 [4317; 56371340735530225194; 95437790959206878850]; StrE false 44 [5625; 91635383382660596466; 15267424583208963350]; StrE false 44 [7137; 35656829664569413427; 20861658053324804250]; StrE false 44 [8816; 73458436644468098939; 49299695242342405250]; StrE false 45 [10605; 63725365818708003072; 14374995726295936750]; StrE false 45 [12423; 74649714244772232170; 22553566422232383050]; StrE false 45 [14173; 56994744420092264870; 25730125073251028550]; StrE false 45 [15748; 41105271577880294300; 28589027859167809500]; StrE false 45 [17042; 80100225406199222598; 93952509601017218500]; StrE false 45 [17964; 3348886238966748144; 82814807417288419500]; StrE false 45 [18443; 7438189872005861428; 69023202281749444020]; StrE false 45 [18443; 7438189872005861428; 69023202281749444020]; StrE false 45 [17964; 3348886238966748144; 82814807417288419500]; StrE false 45 [17042; 80100225406199222598; 93952509601017218500]; StrE false 45 [15748; 41105271577880294300; 28589027859167809500]; StrE false 45 [14173; 56994744420092264870; 25730125073251028550]; StrE false 45 [12423; 74649714244772232170; 22553566422232383050]; StrE false 45 [10605; 63725365818708003072; 14374995726295936750]; StrE false 44 [8816; 73458436644468098939; 49299695242342405250]; StrE false 44 [7137; 35656829664569413427; 20861658053324804250]; StrE false 44 [5625; 91635383382660596466; 15267424583208963350]; StrE false 44 [4317; 56371340735530225194; 95437790959206878850]; StrE false 44 [3225; 76599277561028329168; 64407544969522380750]; StrE false 44 [2346; 1163110953475148486; 28660032705107186000]; StrE false 44 [1660; 65991865056954318591; 41635753487884862000]; StrE false 44 [1144; 1016618150346308362; 97571296847209571600]; StrE false 43 [766; 86395755023858514397; 15954385798678943600]; StrE false 43 [500; 12866796754690335476; 40839816825225398000]; StrE false 43 [317; 28592914070179890248; 47414507448261274000]; StrE false 43 [195; 77216904426281208876; 71808951404246318000]; StrE false 43 [117; 46330142655768725326; 3085370842547790800]; StrE false 42 [68; 52025916549198423106; 85133132991486211300]; StrE false 42 [38; 85169334125834157431; 71982704273523109500]; StrE false 42 [21; 40807592273418821441; 96806796232349468500]; StrE false 42 [11; 46088913035264621580; 4351113134490119500]; StrE false 41 [5; 95966234778337603221; 62262578829934862140]; StrE false 41 [3; 933445284111066973; 29459321983432455140]; StrE false 41 [1; 47516394747113268124; 16401628423251203500]; StrE false 40 [70177702355422816874; 60229900900381640500]; StrE false 40 [32389708779425915480; 58567646569406911000]; StrE false 40 [14498250596504933596; 7168375131067855400]; StrE false 39 [6291693655087046654; 89903257132350201400]; StrE false 39 [2646039387653430836; 17249033373418309000]; StrE false 39 [1078016046821768118; 44064421003985237000]; StrE false 38 [425272385443449808; 19218074341021699000]; StrE false 38 [162376728987499017; 67337810202935557800]; StrE false 37 [59976989986373511; 3250902867750971800]; StrE false 37 [21420353566561968; 22589608167053918500]; StrE false 36 [7392865390229351; 86557475385089405500]; StrE false 36 [2464288463409783; 95519158461696468500]; StrE false 35 [792858027357930; 48993120548545820300]; StrE false 35 [246059387800737; 4859933963341806300]; StrE false 34 [73607509171160; 65556390501854386500]; StrE false 34 [21208943320503; 91770485398839399500]; StrE false 33 [5881471677114; 53180050572787396500]; StrE false 33 [1568392447230; 54181346819409972400]; StrE false 32 [401819552596; 25451419433071976400]; StrE false 31 [98808086703; 99701168713050486000]; StrE false 31 [23296215564; 35701901566491578000]; StrE false 30 [5260435772; 59674622934369066000]; StrE false 30 [1136254126; 88089718553823718256]; StrE false 29 [234465137; 29288354622217592656]; StrE false 28 [46154554; 58521329650042833200]; StrE false 27 [8653978; 98472749309383031225]; StrE false 27 [1542957; 49340102590045036575]; StrE false 26 [261115; 88349863515238390805]; StrE false 25 [41858; 27140054456641268755]; StrE false 24 [6342; 16233341584339586175]; StrE false 23 [906; 2319048797762798025]; StrE false 23 [121; 70460767748953211675]; StrE false 22 [15; 32576541123942256285]; StrE false 21 [1; 80303122485169677210]; StrE false 20 [19741217790347044950]; IntE 2002732239600424850; IntE 187305892912269950; IntE 16054790821051710; IntE 1252501411571410; IntE 88204324758550; IntE 5551321138650; IntE 308406729925; IntE 14888600755; IntE 611860305; IntE 20811575; IntE 562475; IntE 11325; IntE 151; IntE 1];
[IntE 1; IntE 152; IntE 11476; IntE 573800; IntE 21374050; IntE 632671880; IntE 15500461060; IntE 323295330680; IntE 5859727868575; IntE 93755645897200; IntE 1340705736329960; IntE 17307292232623120; IntE 203360683733321660; IntE 2190038132512694800; StrE false 20 [21743950029947469800]; StrE false 21 [2; 44340275516722160]; StrE false 22 [17; 12879663609111933495]; StrE false 23 [137; 3037308872895467960]; StrE false 24 [1027; 72779816546716009700]; StrE false 24 [7248; 18552390382102384200]; StrE false 25 [48200; 43373396040980854930]; StrE false 26 [302974; 15489917971879659560]; StrE false 27 [1804073; 37689966105283427380]; StrE false 28 [10196936; 47812851899428067800]; StrE false 28 [54808533; 56994078959425864425]; StrE false 29 [280619691; 87809684272260425856]; StrE false 30 [1370719264; 17378073176041310912]; StrE false 30 [6396689899; 47764341488192784256]; StrE false 31 [28556651336; 95376524500860644000]; StrE false 32 [122104302268; 35403070279542064000]; StrE false 32 [500627639300; 25152588146122462400]; StrE false 33 [1970211999826; 79632766252481948800]; StrE false 33 [7449864124345; 7361397392197368900]; StrE false 34 [27090414997618; 44950535971626796000]; StrE false 34 [94816452491664; 57326875900693786000]; StrE false 35 [319666896971897; 70416324465196192800]; StrE false 36 [1038917415158667; 53853054511887626600]; StrE false 36 [3257146490767714; 44512279010242288800]; StrE false 36 [9857153853639135; 82076633846785874000]; StrE false 37 [28813218956791320; 9147083552143324000]; StrE false 37 [81397343552935479; 25840511034804890300]; StrE false 38 [222353718973872528; 70588713070686529600]; StrE false 38 [587649114430948825; 86555884543957256800]; StrE false 39 [1503288432265217926; 63282495345006936000]; StrE false 39 [3724055434475198954; 61313454377403546000]; StrE false 39 [8937733042740477491; 7152290505768510400]; StrE false 40 [20789944251591980250; 97071632263418056800]; StrE false 40 [46887959375930849076; 65736021700474766400]; StrE false 41 [1; 2567411134848732355; 18797547469788551500]; StrE false 41 [2; 17694097102536084998; 76631529323632844000]; StrE false 41 [4; 48449840031224335097; 45860950406683658640]; StrE false 41 [8; 96899680062448670194; 91721900813367317280]; StrE false 42 [17; 42055147813602224801; 66613691964424981640]; StrE false 42 [32; 86896505308683443022; 1157909366839588000]; StrE false 42 [60; 25976926399252978873; 68789500505872578000]; StrE false 43 [107; 37195250675032580538; 57115837265009320800]; StrE false 43 [185; 98356059204967148432; 88218503834034002100]; StrE false 43 [313; 23547047082049934202; 74894322246794108800]; StrE false 43 [513; 5809818496461099125; 19223458852507592000]; StrE false 43 [817; 41459710824870225724; 88254324273486672000]; StrE false 44 [1266; 99262551778548849873; 56794202623904341600]; StrE false 44 [1910; 87412373174204822760; 13525682645888515200]; StrE false 44 [2804; 67008483207300626954; 39207050335094433600]; StrE false 44 [4006; 67154976010429467077; 70295786192992048000]; StrE false 44 [5571; 77762388514503477654; 93067577674629566750]; StrE false 44 [7543; 32970618296558554363; 59845335928729259600]; StrE false 44 [9943; 48006724118190821661; 10705215542415842200]; StrE false 45 [12763; 27292213047230009893; 36129082636533767600]; StrE false 45 [15954; 9115266309037512366; 70161353295667209500]; StrE false 45 [19422; 37183802463176102011; 63674690968638342000]; StrE false 45 [23029; 38375080063480235242; 36928562148528319800]; StrE false 45 [26597; 31644458664864497040; 48283691495483411600]; StrE false 45 [29921; 98100015997972559170; 54319152932418838050]; StrE false 45 [32791; 21205496984079516899; 22541537460185028000]; StrE false 45 [35006; 83449111645165970743; 76767317018305638000]; StrE false 45 [36407; 10787076110972609573; 51838009699037863520]; StrE false 45 [36886; 14876379744011722857; 38046404563498888040]; StrE false 45 [36407; 10787076110972609573; 51838009699037863520]; StrE false 45 [35006; 83449111645165970743; 76767317018305638000]; StrE false 45 [32791; 21205496984079516899; 22541537460185028000]; StrE false 45 [29921; 98100015997972559170; 54319152932418838050]; StrE false 45 [26597; 31644458664864497040; 48283691495483411600]; StrE false 45 [23029; 38375080063480235242; 36928562148528319800]; StrE false 45 [19422; 37183802463176102011; 63674690968638342000]; StrE false 45 [15954; 9115266309037512366; 70161353295667209500]; StrE false 45 [12763; 27292213047230009893; 36129082636533767600]; StrE false 44 [9943; 48006724118190821661; 10705215542415842200]; StrE false 44 [7543; 32970618296558554363; 59845335928729259600]; StrE false 44 [5571; 77762388514503477654; 93067577674629566750]; StrE false 44 [4006; 67154976010429467077; 70295786192992048000]; StrE false 44 [2804; 67008483207300626954; 39207050335094433600]; StrE false 44 [1910; 87412373174204822760; 13525682645888515200]; StrE false 44 [1266; 99262551778548849873; 56794202623904341600]; StrE false 43 [817; 41459710824870225724; 88254324273486672000]; StrE false 43 [513; 5809818496461099125; 19223458852507592000]; StrE false 43 [313; 23547047082049934202; 74894322246794108800]; StrE false 43 [185; 98356059204967148432; 88218503834034002100]; StrE false 43 [107; 37195250675032580538; 57115837265009320800]; StrE false 42 [60; 25976926399252978873; 68789500505872578000]; StrE false 42 [32; 86896505308683443022; 1157909366839588000]; StrE false 42 [17; 42055147813602224801; 66613691964424981640]; StrE false 41 [8; 96899680062448670194; 91721900813367317280]; StrE false 41 [4; 48449840031224335097; 45860950406683658640]; StrE false 41 [2; 17694097102536084998; 76631529323632844000]; StrE false 41 [1; 2567411134848732355; 18797547469788551500]; StrE false 40 [46887959375930849076; 65736021700474766400]; StrE false 40 [20789944251591980250; 97071632263418056800]; StrE false 39 [8937733042740477491; 7152290505768510400]; StrE false 39 [3724055434475198954; 61313454377403546000]; StrE false 39 [1503288432265217926; 63282495345006936000]; StrE false 38 [587649114430948825; 86555884543957256800]; StrE false 38 [222353718973872528; 70588713070686529600]; StrE false 37 [81397343552935479; 25840511034804890300]; StrE false 37 [28813218956791320; 9147083552143324000]; StrE false 36 [9857153853639135; 82076633846785874000]; StrE false 36 [3257146490767714; 44512279010242288800]; StrE false 36 [1038917415158667; 53853054511887626600]; StrE false 35 [319666896971897; 70416324465196192800]; StrE false 34 [94816452491664; 57326875900693786000]; StrE false 34 [27090414997618; 44950535971626796000]; StrE false 33 [7449864124345; 7361397392197368900]; StrE false 33 [1970211999826; 79632766252481948800]; StrE false 32 [500627639300; 25152588146122462400]; StrE false 32 [122104302268; 35403070279542064000]; StrE false 31 [28556651336; 95376524500860644000]; StrE false 30 [6396689899; 47764341488192784256]; StrE false 30 [1370719264; 17378073176041310912]; StrE false 29 [280619691; 87809684272260425856]; StrE false 28 [54808533; 56994078959425864425]; StrE false 28 [10196936; 47812851899428067800]; StrE false 27 [1804073; 37689966105283427380]; StrE false 26 [302974; 15489917971879659560]; StrE false 25 [48200; 43373396040980854930]; StrE false 24 [7248; 18552390382102384200]; StrE false 24 [1027; 72779816546716009700]; StrE false 23 [137; 3037308872895467960]; StrE false 22 [17; 12879663609111933495]; StrE false 21 [2; 44340275516722160]; StrE false 20 [21743950029947469800]; IntE 2190038132512694800; IntE 203360683733321660; IntE 17307292232623120; IntE 1340705736329960; IntE 93755645897200; IntE 5859727868575; IntE 323295330680; IntE 15500461060; IntE 632671880; IntE 21374050; IntE 573800; IntE 11476; IntE 152; IntE 1];
[IntE 1; IntE 153; IntE 11628; IntE 585276; IntE 21947850; IntE 654045930; IntE 16133132940; IntE 338795791740; IntE 6183023199255; IntE 99615373765775; IntE 1434461382227160; IntE 18647997968953080; IntE 220667975965944780; IntE 2393398816246016460; StrE false 20 [23933988162460164600]; StrE false 21 [2; 21788290305464191960]; StrE false 22 [19; 12924003884628655655]; StrE false 23 [154; 15916972482007401455]; StrE false 24 [1164; 75817125419611477660]; StrE false 24 [8275; 91332206928818393900]; StrE false 25 [55448; 61925786423083239130]; StrE false 26 [351174; 58863314012860514490]; StrE false 27 [2107047; 53179884077163086940]; StrE false 28 [12001009; 85502818004711495180]; StrE false 28 [65005470; 4806930858853932225]; StrE false 29 [335428225; 44803763231686290281]; StrE false 30 [1651338956; 5187757448301736768]; StrE false 30 [7767409163; 65142414664234095168]; StrE false 31 [34953341236; 43140865989053428256]; StrE false 32 [150660953605; 30779594780402708000]; StrE false 32 [622731941568; 60555658425664526400]; StrE false 33 [2470839639127; 4785354398604411200]; StrE false 33 [9420076124171; 86994163644679317700]; StrE false 34 [34540279121963; 52311933363824164900]; StrE false 35 [121906867489283; 2277411872320582000]; StrE false 35 [414483349463562; 27743200365889978800]; StrE false 36 [1358584312130565; 24269378977083819400]; StrE false 36 [4296063905926381; 98365333522129915400]; StrE false 37 [13114300344406850; 26588912857028162800]; StrE false 37 [38670372810430455; 91223717398929198000]; StrE false 38 [110210562509726799; 34987594586948214300]; StrE false 38 [303751062526808007; 96429224105491419900]; StrE false 38 [810002833404821354; 57144597614643786400]; StrE false 39 [2090937546696166752; 49838379888964192800]; StrE false 39 [5227343866740416881; 24595949722410482000]; StrE false 40 [12661788477215676445; 68465744883172056400]; StrE false 40 [29727677294332457742; 4223922769186567200]; StrE false 40 [67677903627522829327; 62807653963892823200]; StrE false 41 [1; 49455370510779581431; 84533569170263317900]; StrE false 41 [3; 20261508237384817353; 95429076793421395500]; StrE false 41 [6; 66143937133760420096; 22492479730316502640]; StrE false 42 [13; 45349520093673005292; 37582851220050975920]; StrE false 42 [26; 38954827876050894996; 58335592777792298920]; StrE false 42 [50; 28951653122285667823; 67771601331264569640]; StrE false 42 [93; 12873431707936421895; 69947409872712166000]; StrE false 43 [167; 63172177074285559412; 25905337770881898800]; StrE false 43 [293; 35551309879999728971; 45334341099043322900]; StrE false 43 [499; 21903106287017082635; 63112826080828110900]; StrE false 43 [826; 29356865578511033327; 94117781099301700800]; StrE false 44 [1330; 47269529321331324850; 7477783125994264000]; StrE false 44 [2084; 40722262603419075598; 45048526897391013600]; StrE false 44 [3177; 86674924952753672633; 70319885269792856800]; StrE false 44 [4715; 54420856381505449714; 52732732980982948800]; StrE false 44 [6811; 34163459217730094032; 9502836528086481600]; StrE false 44 [9578; 44917364524932944732; 63363363867621614750]; StrE false 45 [13115; 10733006811062032018; 52912913603358826350]; StrE false 45 [17486; 80977342414749376024; 70550551471145101800]; StrE false 45 [22706; 75298937165420831554; 46834298178949609800]; StrE false 45 [28717; 36407479356267522260; 6290435932200977100]; StrE false 45 [35376; 46299068772213614378; 33836044264305551500]; StrE false 45 [42451; 75558882526656337254; 603253117166661800]; StrE false 45 [49626; 70019538728344732282; 85212253644011731400]; StrE false 45 [56519; 29744474662837056211; 2602844427902249650]; StrE false 45 [62713; 19305512982052076069; 76860690392603866050]; StrE false 45 [67798; 4654608629245487642; 99308854478490666000]; StrE false 45 [71413; 94236187756138580317; 28605326717343501520]; StrE false 45 [73293; 25663455854984332430; 89884414262536751560]; StrE false 45 [73293; 25663455854984332430; 89884414262536751560]; StrE false 45 [71413; 94236187756138580317; 28605326717343501520]; StrE false 45 [67798; 4654608629245487642; 99308854478490666000]; StrE false 45 [62713; 19305512982052076069; 76860690392603866050]; StrE false 45 [56519; 29744474662837056211; 2602844427902249650]; StrE false 45 [49626; 70019538728344732282; 85212253644011731400]; StrE false 45 [42451; 75558882526656337254; 603253117166661800]; StrE false 45 [35376; 46299068772213614378; 33836044264305551500]; StrE false 45 [28717; 36407479356267522260; 6290435932200977100]; StrE false 45 [22706; 75298937165420831554; 46834298178949609800]; StrE false 45 [17486; 80977342414749376024; 70550551471145101800]; StrE false 45 [13115; 10733006811062032018; 52912913603358826350]; StrE false 44 [9578; 44917364524932944732; 63363363867621614750]; StrE false 44 [6811; 34163459217730094032; 9502836528086481600]; StrE false 44 [4715; 54420856381505449714; 52732732980982948800]; StrE false 44 [3177; 86674924952753672633; 70319885269792856800]; StrE false 44 [2084; 40722262603419075598; 45048526897391013600]; StrE false 44 [1330; 47269529321331324850; 7477783125994264000]; StrE false 43 [826; 29356865578511033327; 94117781099301700800]; StrE false 43 [499; 21903106287017082635; 63112826080828110900]; StrE false 43 [293; 35551309879999728971; 45334341099043322900]; StrE false 43 [167; 63172177074285559412; 25905337770881898800]; StrE false 42 [93; 12873431707936421895; 69947409872712166000]; StrE false 42 [50; 28951653122285667823; 67771601331264569640]; StrE false 42 [26; 38954827876050894996; 58335592777792298920]; StrE false 42 [13; 45349520093673005292; 37582851220050975920]; StrE false 41 [6; 66143937133760420096; 22492479730316502640]; StrE false 41 [3; 20261508237384817353; 95429076793421395500]; StrE false 41 [1; 49455370510779581431; 84533569170263317900]; StrE false 40 [67677903627522829327; 62807653963892823200]; StrE false 40 [29727677294332457742; 4223922769186567200]; StrE false 40 [12661788477215676445; 68465744883172056400]; StrE false 39 [5227343866740416881; 24595949722410482000]; StrE false 39 [2090937546696166752; 49838379888964192800]; StrE false 38 [810002833404821354; 57144597614643786400]; StrE false 38 [303751062526808007; 96429224105491419900]; StrE false 38 [110210562509726799; 34987594586948214300]; StrE false 37 [38670372810430455; 91223717398929198000]; StrE false 37 [13114300344406850; 26588912857028162800]; StrE false 36 [4296063905926381; 98365333522129915400]; StrE false 36 [1358584312130565; 24269378977083819400]; StrE false 35 [414483349463562; 27743200365889978800]; StrE false 35 [121906867489283; 2277411872320582000]; StrE false 34 [34540279121963; 52311933363824164900]; StrE false 33 [9420076124171; 86994163644679317700]; StrE false 33 [2470839639127; 4785354398604411200]; StrE false 32 [622731941568; 60555658425664526400]; StrE false 32 [150660953605; 30779594780402708000]; StrE false 31 [34953341236; 43140865989053428256]; StrE false 30 [7767409163; 65142414664234095168]; StrE false 30 [1651338956; 5187757448301736768]; StrE false 29 [335428225; 44803763231686290281]; StrE false 28 [65005470; 4806930858853932225]; StrE false 28 [12001009; 85502818004711495180]; StrE false 27 [2107047; 53179884077163086940]; StrE false 26 [351174; 58863314012860514490]; StrE false 25 [55448; 61925786423083239130]; StrE false 24 [8275; 91332206928818393900]; StrE false 24 [1164; 75817125419611477660]; StrE false 23 [154; 15916972482007401455]; StrE false 22 [19; 12924003884628655655]; StrE false 21 [2; 21788290305464191960]; StrE false 20 [23933988162460164600]; IntE 2393398816246016460; IntE 220667975965944780; IntE 18647997968953080; IntE 1434461382227160; IntE 99615373765775; IntE 6183023199255; IntE 338795791740; IntE 16133132940; IntE 654045930; IntE 21947850; IntE 585276; IntE 11628; IntE 153; IntE 1];
[IntE 1; IntE 154; IntE 11781; IntE 596904; IntE 22533126; IntE 675993780; IntE 16787178870; IntE 354928924680; IntE 6521818990995; IntE 105798396965030; IntE 1534076755992935; IntE 20082459351180240; IntE 239315973934897860; IntE 2614066792211961240; StrE false 20 [26327386978706181060]; StrE false 21 [2; 45722278467924356560]; StrE false 22 [21; 34712294190092847615]; StrE false 23 [173; 28840976366636057110]; StrE false 24 [1318; 91734097901618879115]; StrE false 24 [9440; 67149332348429871560]; StrE false 25 [63724; 53257993351901633030]; StrE false 26 [406623; 20789100435943753620]; StrE false 27 [2458222; 12043198090023601430]; StrE false 28 [14108057; 38682702081874582120]; StrE false 28 [77006479; 90309748863565427405]; StrE false 29 [400433695; 49610694090540222506]; StrE false 30 [1986767181; 49991520679988027049]; StrE false 30 [9418748119; 70330172112535831936]; StrE false 31 [42720750400; 8283280653287523424]; StrE false 32 [185614294841; 73920460769456136256]; StrE false 32 [773392895173; 91335253206067234400]; StrE false 33 [3093571580695; 65341012824268937600]; StrE false 34 [11890915763298; 91779518043283728900]; StrE false 34 [43960355246135; 39306097008503482600]; StrE false 35 [156447146611246; 54589345236144746900]; StrE false 35 [536390216952845; 30020612238210560800]; StrE false 36 [1773067661594127; 52012579342973798200]; StrE false 36 [5654648218056947; 22634712499213734800]; StrE false 37 [17410364250333232; 24954246379158078200]; StrE false 37 [51784673154837306; 17812630255957360800]; StrE false 38 [148880935320157255; 26211311985877412300]; StrE false 38 [413961625036534807; 31416818692439634200]; StrE false 39 [1113753895931629362; 53573821720135206300]; StrE false 39 [2900940380100988107; 6982977503607979200]; StrE false 39 [7318281413436583633; 74434329611374674800]; StrE false 40 [17889132343956093326; 93061694605582538400]; StrE false 40 [42389465771548134187; 72689667652358623600]; StrE false 40 [97405580921855287069; 67031576733079390400]; StrE false 41 [2; 17133274138302410759; 47341223134156141100]; StrE false 41 [4; 69716878748164398785; 79962645963684713400]; StrE false 41 [9; 86405445371145237450; 17921556523737898140]; StrE false 42 [20; 11493457227433425388; 60075330950367478560]; StrE false 42 [39; 84304347969723900288; 95918443997843274840]; StrE false 42 [76; 67906480998336562820; 26107194109056868560]; StrE false 43 [143; 41825084830222089719; 37719011203976735640]; StrE false 43 [260; 76045608782221981307; 95852747643594064800]; StrE false 43 [460; 98723486954285288383; 71239678869925221700]; StrE false 43 [792; 57454416167016811607; 8447167179871433800]; StrE false 44 [1325; 51259971865528115963; 57230607180129811700]; StrE false 44 [2156; 76626394899842358178; 1595564225295964800]; StrE false 44 [3414; 87991791924750400448; 52526310023385277600]; StrE false 44 [5262; 27397187556172748232; 15368412167183870400]; StrE false 44 [7893; 41095781334259122348; 23052618250775805600]; StrE false 45 [11526; 88584315599235543746; 62235569509069430400]; StrE false 45 [16389; 79080823742663038764; 72866200395708096350]; StrE false 45 [22693; 55650371335994976751; 16276277470980441100]; StrE false 45 [30601; 91710349225811408043; 23463465074503928150]; StrE false 45 [40193; 56276279580170207579; 17384849650094711600]; StrE false 45 [51424; 11706416521688353814; 53124734111150586900]; StrE false 45 [64093; 82706548128481136638; 40126480196506528600]; StrE false 45 [77828; 21857951298869951632; 34439297381472213300]; StrE false 45 [92078; 45578421255001069536; 85815506761178393200]; StrE false 46 [106145; 99764013391181788493; 87815098071913981050]; StrE false 46 [119232; 49049987644889132280; 79463534820506115700]; StrE false 46 [130511; 23960121611297563712; 76169544871094532050]; StrE false 46 [139211; 98890796385384067960; 27914181195834167520]; StrE false 46 [144707; 19899643611122912748; 18489740979880253080]; StrE false 46 [146586; 51326911709968664861; 79768828525073503120]; StrE false 46 [144707; 19899643611122912748; 18489740979880253080]; StrE false 46 [139211; 98890796385384067960; 27914181195834167520]; StrE false 46 [130511; 23960121611297563712; 76169544871094532050]; StrE false 46 [119232; 49049987644889132280; 79463534820506115700]; StrE false 46 [106145; 99764013391181788493; 87815098071913981050]; StrE false 45 [92078; 45578421255001069536; 85815506761178393200]; StrE false 45 [77828; 21857951298869951632; 34439297381472213300]; StrE false 45 [64093; 82706548128481136638; 40126480196506528600]; StrE false 45 [51424; 11706416521688353814; 53124734111150586900]; StrE false 45 [40193; 56276279580170207579; 17384849650094711600]; StrE false 45 [30601; 91710349225811408043; 23463465074503928150]; StrE false 45 [22693; 55650371335994976751; 16276277470980441100]; StrE false 45 [16389; 79080823742663038764; 72866200395708096350]; StrE false 45 [11526; 88584315599235543746; 62235569509069430400]; StrE false 44 [7893; 41095781334259122348; 23052618250775805600]; StrE false 44 [5262; 27397187556172748232; 15368412167183870400]; StrE false 44 [3414; 87991791924750400448; 52526310023385277600]; StrE false 44 [2156; 76626394899842358178; 1595564225295964800]; StrE false 44 [1325; 51259971865528115963; 57230607180129811700]; StrE false 43 [792; 57454416167016811607; 8447167179871433800]; StrE false 43 [460; 98723486954285288383; 71239678869925221700]; StrE false 43 [260; 76045608782221981307; 95852747643594064800]; StrE false 43 [143; 41825084830222089719; 37719011203976735640]; StrE false 42 [76; 67906480998336562820; 26107194109056868560]; StrE false 42 [39; 84304347969723900288; 95918443997843274840]; StrE false 42 [20; 11493457227433425388; 60075330950367478560]; StrE false 41 [9; 86405445371145237450; 17921556523737898140]; StrE false 41 [4; 69716878748164398785; 79962645963684713400]; StrE false 41 [2; 17133274138302410759; 47341223134156141100]; StrE false 40 [97405580921855287069; 67031576733079390400]; StrE false 40 [42389465771548134187; 72689667652358623600]; StrE false 40 [17889132343956093326; 93061694605582538400]; StrE false 39 [7318281413436583633; 74434329611374674800]; StrE false 39 [2900940380100988107; 6982977503607979200]; StrE false 39 [1113753895931629362; 53573821720135206300]; StrE false 38 [413961625036534807; 31416818692439634200]; StrE false 38 [148880935320157255; 26211311985877412300]; StrE false 37 [51784673154837306; 17812630255957360800]; StrE false 37 [17410364250333232; 24954246379158078200]; StrE false 36 [5654648218056947; 22634712499213734800]; StrE false 36 [1773067661594127; 52012579342973798200]; StrE false 35 [536390216952845; 30020612238210560800]; StrE false 35 [156447146611246; 54589345236144746900]; StrE false 34 [43960355246135; 39306097008503482600]; StrE false 34 [11890915763298; 91779518043283728900]; StrE false 33 [3093571580695; 65341012824268937600]; StrE false 32 [773392895173; 91335253206067234400]; StrE false 32 [185614294841; 73920460769456136256]; StrE false 31 [42720750400; 8283280653287523424]; StrE false 30 [9418748119; 70330172112535831936]; StrE false 30 [1986767181; 49991520679988027049]; StrE false 29 [400433695; 49610694090540222506]; StrE false 28 [77006479; 90309748863565427405]; StrE false 28 [14108057; 38682702081874582120]; StrE false 27 [2458222; 12043198090023601430]; StrE false 26 [406623; 20789100435943753620]; StrE false 25 [63724; 53257993351901633030]; StrE false 24 [9440; 67149332348429871560]; StrE false 24 [1318; 91734097901618879115]; StrE false 23 [173; 28840976366636057110]; StrE false 22 [21; 34712294190092847615]; StrE false 21 [2; 45722278467924356560]; StrE false 20 [26327386978706181060]; IntE 2614066792211961240; IntE 239315973934897860; IntE 20082459351180240; IntE 1534076755992935; IntE 105798396965030; IntE 6521818990995; IntE 354928924680; IntE 16787178870; IntE 675993780; IntE 22533126; IntE 596904; IntE 11781; IntE 154; IntE 1];
[IntE 1; IntE 155; IntE 11935; IntE 608685; IntE 23130030; IntE 698526906; IntE 17463172650; IntE 371716103550; IntE 6876747915675; IntE 112320215956025; IntE 1639875152957965; IntE 21616536107173175; IntE 259398433286078100; IntE 2853382766146859100; StrE false 20 [28941453770918142300]; StrE false 21 [2; 72049665446630537620]; StrE false 22 [23; 80434572658017204175]; StrE false 23 [194; 63553270556728904725]; StrE false 24 [1492; 20575074268254936225]; StrE false 25 [10759; 58883430250048750675]; StrE false 25 [73165; 20407325700331504590]; StrE false 26 [470347; 74047093787845386650]; StrE false 27 [2864845; 32832298525967355050]; StrE false 28 [16566279; 50725900171898183550]; StrE false 28 [91114537; 28992450945440009525]; StrE false 29 [477440175; 39920442954105649911]; StrE false 30 [2387200876; 99602214770528249555]; StrE false 31 [11405515301; 20321692792523858985]; StrE false 31 [52139498519; 78613452765823355360]; StrE false 32 [228335045241; 82203741422743659680]; StrE false 32 [959007190015; 65255713975523370656]; StrE false 33 [3866964475869; 56676266030336172000]; StrE false 34 [14984487343994; 57120530867552666500]; StrE false 34 [55851271009434; 31085615051787211500]; StrE false 35 [200407501857381; 93895442244648229500]; StrE false 35 [692837363564091; 84609957474355307700]; StrE false 36 [2309457878546972; 82033191581184359000]; StrE false 36 [7427715879651074; 74647291842187533000]; StrE false 37 [23065012468390179; 47588958878371813000]; StrE false 37 [69195037405170538; 42766876635115439000]; StrE false 38 [200665608474994561; 44023942241834773100]; StrE false 38 [562842560356692062; 57628130678317046500]; StrE false 39 [1527715520968164169; 84990640412574840500]; StrE false 39 [4014694276032617469; 60556799223743185500]; StrE false 40 [10219221793537571740; 81417307114982654000]; StrE false 40 [25207413757392676960; 67496024216957213200]; StrE false 40 [60278598115504227514; 65751362257941162000]; StrE false 41 [1; 39795046693403421257; 39721244385438014000]; StrE false 41 [3; 14538855060157697829; 14372799867235531500]; StrE false 41 [6; 86850152886466809545; 27303869097840854500]; StrE false 42 [14; 56122324119309636235; 97884202487422611540]; StrE false 42 [29; 97898902598578662838; 77996887474105376700]; StrE false 42 [59; 95797805197157325677; 55993774948210753400]; StrE false 43 [116; 52210828968060463109; 22025638106900143400]; StrE false 43 [220; 9731565828558652539; 63826205313033604200]; StrE false 43 [404; 17870693612444071027; 33571758847570800440]; StrE false 43 [721; 74769095736507269691; 67092426513519286500]; StrE false 44 [1253; 56177903121302099990; 79686846049796655500]; StrE false 44 [2118; 8714388032544927570; 65677774360001245500]; StrE false 44 [3482; 27886366765370474141; 58826171405425776500]; StrE false 44 [5571; 64618186824592758626; 54121874248681242400]; StrE false 44 [8677; 15388979480923148680; 67894722190569148000]; StrE false 45 [13155; 68492968890431870580; 38421030417959676000]; StrE false 45 [19420; 29680096933494666094; 85288187759845236000]; StrE false 45 [27916; 67665139341898582511; 35101769904777526750]; StrE false 45 [39083; 34731195078658015515; 89142477866688537450]; StrE false 45 [53295; 47360720561806384794; 39739742545484369250]; StrE false 45 [70795; 47986628805981615622; 40848314724598639750]; StrE false 45 [91617; 67982696101858561393; 70509583761245298500]; StrE false 46 [115517; 94412964650169490452; 93251214307657115500]; StrE false 46 [141922; 4564499427351088270; 74565777577978741900]; StrE false 46 [169906; 67436372553871021169; 20254804142650606500]; StrE false 46 [198224; 45342434646182858030; 73630604833092374250]; StrE false 46 [225378; 48814001036070920774; 67278632892420096750]; StrE false 46 [249743; 73010109256186695993; 55633079691600647750]; StrE false 46 [269723; 22850917996681631673; 4083726066928699570]; StrE false 46 [283919; 18790439996506980708; 46403922175714420600]; StrE false 46 [291293; 71226555321091577609; 98258569504953756200]; StrE false 46 [291293; 71226555321091577609; 98258569504953756200]; StrE false 46 [283919; 18790439996506980708; 46403922175714420600]; StrE false 46 [269723; 22850917996681631673; 4083726066928699570]; StrE false 46 [249743; 73010109256186695993; 55633079691600647750]; StrE false 46 [225378; 48814001036070920774; 67278632892420096750]; StrE false 46 [198224; 45342434646182858030; 73630604833092374250]; StrE false 46 [169906; 67436372553871021169; 20254804142650606500]; StrE false 46 [141922; 4564499427351088270; 74565777577978741900]; StrE false 46 [115517; 94412964650169490452; 93251214307657115500]; StrE false 45 [91617; 67982696101858561393; 70509583761245298500]; StrE false 45 [70795; 47986628805981615622; 40848314724598639750]; StrE false 45 [53295; 47360720561806384794; 39739742545484369250]; StrE false 45 [39083; 34731195078658015515; 89142477866688537450]; StrE false 45 [27916; 67665139341898582511; 35101769904777526750]; StrE false 45 [19420; 29680096933494666094; 85288187759845236000]; StrE false 45 [13155; 68492968890431870580; 38421030417959676000]; StrE false 44 [8677; 15388979480923148680; 67894722190569148000]; StrE false 44 [5571; 64618186824592758626; 54121874248681242400]; StrE false 44 [3482; 27886366765370474141; 58826171405425776500]; StrE false 44 [2118; 8714388032544927570; 65677774360001245500]; StrE false 44 [1253; 56177903121302099990; 79686846049796655500]; StrE false 43 [721; 74769095736507269691; 67092426513519286500]; StrE false 43 [404; 17870693612444071027; 33571758847570800440]; StrE false 43 [220; 9731565828558652539; 63826205313033604200]; StrE false 43 [116; 52210828968060463109; 22025638106900143400]; StrE false 42 [59; 95797805197157325677; 55993774948210753400]; StrE false 42 [29; 97898902598578662838; 77996887474105376700]; StrE false 42 [14; 56122324119309636235; 97884202487422611540]; StrE false 41 [6; 86850152886466809545; 27303869097840854500]; StrE false 41 [3; 14538855060157697829; 14372799867235531500]; StrE false 41 [1; 39795046693403421257; 39721244385438014000]; StrE false 40 [60278598115504227514; 65751362257941162000]; StrE false 40 [25207413757392676960; 67496024216957213200]; StrE false 40 [10219221793537571740; 81417307114982654000]; StrE false 39 [4014694276032617469; 60556799223743185500]; StrE false 39 [1527715520968164169; 84990640412574840500]; StrE false 38 [562842560356692062; 57628130678317046500]; StrE false 38 [200665608474994561; 44023942241834773100]; StrE false 37 [69195037405170538; 42766876635115439000]; StrE false 37 [23065012468390179; 47588958878371813000]; StrE false 36 [7427715879651074; 74647291842187533000]; StrE false 36 [2309457878546972; 82033191581184359000]; StrE false 35 [692837363564091; 84609957474355307700]; StrE false 35 [200407501857381; 93895442244648229500]; StrE false 34 [55851271009434; 31085615051787211500]; StrE false 34 [14984487343994; 57120530867552666500]; StrE false 33 [3866964475869; 56676266030336172000]; StrE false 32 [959007190015; 65255713975523370656]; StrE false 32 [228335045241; 82203741422743659680]; StrE false 31 [52139498519; 78613452765823355360]; StrE false 31 [11405515301; 20321692792523858985]; StrE false 30 [2387200876; 99602214770528249555]; StrE false 29 [477440175; 39920442954105649911]; StrE false 28 [91114537; 28992450945440009525]; StrE false 28 [16566279; 50725900171898183550]; StrE false 27 [2864845; 32832298525967355050]; StrE false 26 [470347; 74047093787845386650]; StrE false 25 [73165; 20407325700331504590]; StrE false 25 [10759; 58883430250048750675]; StrE false 24 [1492; 20575074268254936225]; StrE false 23 [194; 63553270556728904725]; StrE false 22 [23; 80434572658017204175]; StrE false 21 [2; 72049665446630537620]; StrE false 20 [28941453770918142300]; IntE 2853382766146859100; IntE 259398433286078100; IntE 21616536107173175; IntE 1639875152957965; IntE 112320215956025; IntE 6876747915675; IntE 371716103550; IntE 17463172650; IntE 698526906; IntE 23130030; IntE 608685; IntE 11935; IntE 155; IntE 1];
[IntE 1; IntE 156; IntE 12090; IntE 620620; IntE 23738715; IntE 721656936; IntE 18161699556; IntE 389179276200; IntE 7248464019225; IntE 119196963871700; IntE 1752195368913990; IntE 23256411260131140; IntE 281014969393251275; IntE 3112781199432937200; StrE false 20 [31794836537065001400]; StrE false 21 [3; 991119217548679920]; StrE false 22 [26; 52484238104647741795]; StrE false 23 [218; 43987843214746108900]; StrE false 24 [1686; 84128344824983840950]; StrE false 25 [12251; 79458504518303686900]; StrE false 25 [83924; 79290755950380255265]; StrE false 26 [543512; 94454419488176891240]; StrE false 27 [3335193; 6879392313812741700]; StrE false 28 [19431124; 83558198697865538600]; StrE false 29 [107680816; 79718351117338193075]; StrE false 29 [568554712; 68912893899545659436]; StrE false 30 [2864641052; 39522657724633899466]; StrE false 31 [13792716178; 19923907563052108540]; StrE false 31 [63545013820; 98935145558347214345]; StrE false 32 [280474543761; 60817194188567015040]; StrE false 33 [1187342235257; 47459455398267030336]; StrE false 33 [4825971665885; 21931980005859542656]; StrE false 34 [18851451819864; 13796796897888838500]; StrE false 34 [70835758353428; 88206145919339878000]; StrE false 35 [256258772866816; 24981057296435441000]; StrE false 35 [893244865421473; 78505399719003537200]; StrE false 36 [3002295242111064; 66643149055539666700]; StrE false 36 [9737173758198047; 56680483423371892000]; StrE false 37 [30492728348041254; 22236250720559346000]; StrE false 37 [92260049873560717; 90355835513487252000]; StrE false 38 [269860645880165099; 86790818876950212100]; StrE false 38 [763508168831686624; 1652072920151819600]; StrE false 39 [2090558081324856232; 42618771090891887000]; StrE false 39 [5542409797000781639; 45547439636318026000]; StrE false 40 [14233916069570189210; 41974106338725839500]; StrE false 40 [35426635550930248701; 48913331331939867200]; StrE false 40 [85486011872896904475; 33247386474898375200]; StrE false 41 [2; 73644808907648772; 5472606643379176000]; StrE false 41 [4; 54333901753561119086; 54094044252673545500]; StrE false 42 [10; 1389007946624507374; 41676668965076386000]; StrE false 42 [21; 42972477005776445781; 25188071585263466040]; StrE false 42 [44; 54021226717888299074; 75881089961527988240]; StrE false 42 [89; 93696707795735988516; 33990662422316130100]; StrE false 43 [176; 48008634165217788786; 78019413055110896800]; StrE false 43 [336; 61942394796619115648; 85851843419933747600]; StrE false 43 [624; 27602259441002723566; 97397964160604404640]; StrE false 44 [1125; 92639789348951340719; 664185361090086940]; StrE false 44 [1975; 30946998857809369682; 46779272563315942000]; StrE false 44 [3371; 64892291153847027561; 45364620409797901000]; StrE false 44 [5600; 36600754797915401712; 24503945765427022000]; StrE false 44 [9053; 92504553589963232768; 12948045654107018900]; StrE false 45 [14248; 80007166305515907307; 22016596439250390400]; StrE false 45 [21832; 83881948371355019261; 6315752608528824000]; StrE false 45 [32575; 98173065823926536675; 23709218177804912000]; StrE false 45 [47336; 97345236275393248606; 20389957664622762750]; StrE false 45 [67000; 2396334420556598027; 24244247771466064200]; StrE false 45 [92378; 82091915640464400310; 28882220412172906700]; StrE false 46 [124090; 95347349367788000416; 80588057270083009000]; StrE false 46 [162413; 15969324907840177016; 11357898485843938250]; StrE false 46 [207135; 62395660752028051846; 63760798068902414000]; StrE false 46 [257439; 98977464077520578723; 67816991885635857400]; StrE false 46 [311828; 72000871981222109439; 94820581720629348400]; StrE false 46 [368131; 12778807200053879199; 93885408975742980750]; StrE false 46 [423602; 94156435682253778805; 40909237725512471000]; StrE false 46 [475122; 21824110292257616768; 22911712584020744500]; StrE false 46 [519466; 95861027252868327666; 59716805758529347320]; StrE false 46 [553642; 41641357993188612381; 50487648242643120170]; StrE false 46 [575212; 90016995317598558318; 44662491680668176800]; StrE false 46 [582587; 42453110642183155219; 96517139009907512400]; StrE false 46 [575212; 90016995317598558318; 44662491680668176800]; StrE false 46 [553642; 41641357993188612381; 50487648242643120170]; StrE false 46 [519466; 95861027252868327666; 59716805758529347320]; StrE false 46 [475122; 21824110292257616768; 22911712584020744500]; StrE false 46 [423602; 94156435682253778805; 40909237725512471000]; StrE false 46 [368131; 12778807200053879199; 93885408975742980750]; StrE false 46 [311828; 72000871981222109439; 94820581720629348400]; StrE false 46 [257439; 98977464077520578723; 67816991885635857400]; StrE false 46 [207135; 62395660752028051846; 63760798068902414000]; StrE false 46 [162413; 15969324907840177016; 11357898485843938250]; StrE false 46 [124090; 95347349367788000416; 80588057270083009000]; StrE false 45 [92378; 82091915640464400310; 28882220412172906700]; StrE false 45 [67000; 2396334420556598027; 24244247771466064200]; StrE false 45 [47336; 97345236275393248606; 20389957664622762750]; StrE false 45 [32575; 98173065823926536675; 23709218177804912000]; StrE false 45 [21832; 83881948371355019261; 6315752608528824000]; StrE false 45 [14248; 80007166305515907307; 22016596439250390400]; StrE false 44 [9053; 92504553589963232768; 12948045654107018900]; StrE false 44 [5600; 36600754797915401712; 24503945765427022000]; StrE false 44 [3371; 64892291153847027561; 45364620409797901000]; StrE false 44 [1975; 30946998857809369682; 46779272563315942000]; StrE false 44 [1125; 92639789348951340719; 664185361090086940]; StrE false 43 [624; 27602259441002723566; 97397964160604404640]; StrE false 43 [336; 61942394796619115648; 85851843419933747600]; StrE false 43 [176; 48008634165217788786; 78019413055110896800]; StrE false 42 [89; 93696707795735988516; 33990662422316130100]; StrE false 42 [44; 54021226717888299074; 75881089961527988240]; StrE false 42 [21; 42972477005776445781; 25188071585263466040]; StrE false 42 [10; 1389007946624507374; 41676668965076386000]; StrE false 41 [4; 54333901753561119086; 54094044252673545500]; StrE false 41 [2; 73644808907648772; 5472606643379176000]; StrE false 40 [85486011872896904475; 33247386474898375200]; StrE false 40 [35426635550930248701; 48913331331939867200]; StrE false 40 [14233916069570189210; 41974106338725839500]; StrE false 39 [5542409797000781639; 45547439636318026000]; StrE false 39 [2090558081324856232; 42618771090891887000]; StrE false 38 [763508168831686624; 1652072920151819600]; StrE false 38 [269860645880165099; 86790818876950212100]; StrE false 37 [92260049873560717; 90355835513487252000]; StrE false 37 [30492728348041254; 22236250720559346000]; StrE false 36 [9737173758198047; 56680483423371892000]; StrE false 36 [3002295242111064; 66643149055539666700]; StrE false 35 [893244865421473; 78505399719003537200]; StrE false 35 [256258772866816; 24981057296435441000]; StrE false 34 [70835758353428; 88206145919339878000]; StrE false 34 [18851451819864; 13796796897888838500]; StrE false 33 [4825971665885; 21931980005859542656]; StrE false 33 [1187342235257; 47459455398267030336]; StrE false 32 [280474543761; 60817194188567015040]; StrE false 31 [63545013820; 98935145558347214345]; StrE false 31 [13792716178; 19923907563052108540]; StrE false 30 [2864641052; 39522657724633899466]; StrE false 29 [568554712; 68912893899545659436]; StrE false 29 [107680816; 79718351117338193075]; StrE false 28 [19431124; 83558198697865538600]; StrE false 27 [3335193; 6879392313812741700]; StrE false 26 [543512; 94454419488176891240]; StrE false 25 [83924; 79290755950380255265]; StrE false 25 [12251; 79458504518303686900]; StrE false 24 [1686; 84128344824983840950]; StrE false 23 [218; 43987843214746108900]; StrE false 22 [26; 52484238104647741795]; StrE false 21 [3; 991119217548679920]; StrE false 20 [31794836537065001400]; IntE 3112781199432937200; IntE 281014969393251275; IntE 23256411260131140; IntE 1752195368913990; IntE 119196963871700; IntE 7248464019225; IntE 389179276200; IntE 18161699556; IntE 721656936; IntE 23738715; IntE 620620; IntE 12090; IntE 156; IntE 1];
[IntE 1; IntE 157; IntE 12246; IntE 632710; IntE 24359335; IntE 745395651; IntE 18883356492; IntE 407340975756; IntE 7637643295425; IntE 126445427890925; IntE 1871392332785690; IntE 25008606629045130; IntE 304271380653382415; IntE 3393796168826188475; StrE false 20 [34907617736497938600]; StrE false 21 [3; 32785955754613681320]; StrE false 22 [29; 53475357322196421715]; StrE false 23 [244; 96472081319393850695]; StrE false 24 [1905; 28116188039729949850]; StrE false 25 [13938; 63586849343287527850]; StrE false 25 [96176; 58749260468683942165]; StrE false 26 [627437; 73745175438557146505]; StrE false 27 [3878706; 1333811801989632940]; StrE false 28 [22766317; 90437591011678280300]; StrE false 29 [127111941; 63276549815203731675]; StrE false 29 [676235529; 48631245016883852511]; StrE false 30 [3433195765; 8435551624179558902]; StrE false 31 [16657357230; 59446565287686008006]; StrE false 31 [77337729999; 18859053121399322885]; StrE false 32 [344019557582; 59752339746914229385]; StrE false 33 [1467816779019; 8276649586834045376]; StrE false 33 [6013313901142; 69391435404126572992]; StrE false 34 [23677423485749; 35728776903748381156]; StrE false 34 [89687210173293; 2002942817228716500]; StrE false 35 [327094531220245; 13187203215775319000]; StrE false 36 [1149503638288290; 3486457015438978200]; StrE false 36 [3895540107532538; 45148548774543203900]; StrE false 37 [12739469000309112; 23323632478911558700]; StrE false 37 [40229902106239301; 78916734143931238000]; StrE false 38 [122752778221601972; 12592086234046598000]; StrE false 38 [362120695753725817; 77146654390437464100]; StrE false 39 [1033368814711851723; 88442891797102031700]; StrE false 39 [2854066250156542856; 44270844011043706600]; StrE false 39 [7632967878325637871; 88166210727209913000]; StrE false 40 [19776325866570970849; 87521545975043865500]; StrE false 40 [49660551620500437911; 90887437670665706700]; StrE false 41 [1; 20912647423827153176; 82160717806838242400]; StrE false 41 [2; 85559656681804553247; 38719993118277551200]; StrE false 41 [6; 54407546562468767858; 59566650896052721500]; StrE false 42 [14; 55722909700185626460; 95770713217749931500]; StrE false 42 [31; 44361484952400953155; 66864740550339852040]; StrE false 42 [65; 96993703723664744856; 1069161546791454280]; StrE false 43 [134; 47717934513624287591; 9871752383844118340]; StrE false 43 [266; 41705341960953777303; 12010075477427026900]; StrE false 43 [513; 9951028961836904435; 63871256475044644400]; StrE false 43 [960; 89544654237621839215; 83249807580538152240]; StrE false 44 [1750; 20242048789954064285; 98062149521694491580]; StrE false 44 [3101; 23586788206760710401; 47443457924406028940]; StrE false 44 [5346; 95839290011656397243; 92143892973113843000]; StrE false 44 [8972; 1493045951762429273; 69868566175224923000]; StrE false 45 [14654; 29105308387878634480; 37451991419534040900]; StrE false 45 [23302; 72511719895479140075; 34964642093357409300]; StrE false 45 [36081; 63889114676870926568; 28332349047779214400]; StrE false 45 [54408; 82055014195281555936; 30024970786333736000]; StrE false 45 [79912; 95518302099319785281; 44099175842427674750]; StrE false 46 [114336; 99741570695949846633; 44634205436088826950]; StrE false 46 [159378; 84488250061020998337; 53126468183638970900]; StrE false 46 [216469; 77439265008252400727; 9470277682255915700]; StrE false 46 [286504; 11316674275628177432; 91945955755926947250]; StrE false 46 [369548; 78364985659868228862; 75118696554746352250]; StrE false 46 [464575; 61373124829548630570; 31577789954538271400]; StrE false 46 [569268; 70978336058742688163; 62637573606265205800]; StrE false 46 [679959; 84779679181275988639; 88705990696372329150]; StrE false 46 [791734; 6935242882307658005; 34794646701255451750]; StrE false 46 [898725; 15980545974511395573; 63820950309533215500]; StrE false 46 [994589; 17685137545125944434; 82628518342550091820]; StrE false 47 [1073109; 37502385246056940048; 10204454001172467490]; StrE false 47 [1128855; 31658353310787170699; 95150139923311296970]; StrE false 47 [1157800; 32470105959781713538; 41179630690575689200]; StrE false 47 [1157800; 32470105959781713538; 41179630690575689200]; StrE false 47 [1128855; 31658353310787170699; 95150139923311296970]; StrE false 47 [1073109; 37502385246056940048; 10204454001172467490]; StrE false 46 [994589; 17685137545125944434; 82628518342550091820]; StrE false 46 [898725; 15980545974511395573; 63820950309533215500]; StrE false 46 [791734; 6935242882307658005; 34794646701255451750]; StrE false 46 [679959; 84779679181275988639; 88705990696372329150]; StrE false 46 [569268; 70978336058742688163; 62637573606265205800]; StrE false 46 [464575; 61373124829548630570; 31577789954538271400]; StrE false 46 [369548; 78364985659868228862; 75118696554746352250]; StrE false 46 [286504; 11316674275628177432; 91945955755926947250]; StrE false 46 [216469; 77439265008252400727; 9470277682255915700]; StrE false 46 [159378; 84488250061020998337; 53126468183638970900]; StrE false 46 [114336; 99741570695949846633; 44634205436088826950]; StrE false 45 [79912; 95518302099319785281; 44099175842427674750]; StrE false 45 [54408; 82055014195281555936; 30024970786333736000]; StrE false 45 [36081; 63889114676870926568; 28332349047779214400]; StrE false 45 [23302; 72511719895479140075; 34964642093357409300]; StrE false 45 [14654; 29105308387878634480; 37451991419534040900]; StrE false 44 [8972; 1493045951762429273; 69868566175224923000]; StrE false 44 [5346; 95839290011656397243; 92143892973113843000]; StrE false 44 [3101; 23586788206760710401; 47443457924406028940]; StrE false 44 [1750; 20242048789954064285; 98062149521694491580]; StrE false 43 [960; 89544654237621839215; 83249807580538152240]; StrE false 43 [513; 9951028961836904435; 63871256475044644400]; StrE false 43 [266; 41705341960953777303; 12010075477427026900]; StrE false 43 [134; 47717934513624287591; 9871752383844118340]; StrE false 42 [65; 96993703723664744856; 1069161546791454280]; StrE false 42 [31; 44361484952400953155; 66864740550339852040]; StrE false 42 [14; 55722909700185626460; 95770713217749931500]; StrE false 41 [6; 54407546562468767858; 59566650896052721500]; StrE false 41 [2; 85559656681804553247; 38719993118277551200]; StrE false 41 [1; 20912647423827153176; 82160717806838242400]; StrE false 40 [49660551620500437911; 90887437670665706700]; StrE false 40 [19776325866570970849; 87521545975043865500]; StrE false 39 [7632967878325637871; 88166210727209913000]; StrE false 39 [2854066250156542856; 44270844011043706600]; StrE false 39 [1033368814711851723; 88442891797102031700]; StrE false 38 [362120695753725817; 77146654390437464100]; StrE false 38 [122752778221601972; 12592086234046598000]; StrE false 37 [40229902106239301; 78916734143931238000]; StrE false 37 [12739469000309112; 23323632478911558700]; StrE false 36 [3895540107532538; 45148548774543203900]; StrE false 36 [1149503638288290; 3486457015438978200]; StrE false 35 [327094531220245; 13187203215775319000]; StrE false 34 [89687210173293; 2002942817228716500]; StrE false 34 [23677423485749; 35728776903748381156]; StrE false 33 [6013313901142; 69391435404126572992]; StrE false 33 [1467816779019; 8276649586834045376]; StrE false 32 [344019557582; 59752339746914229385]; StrE false 31 [77337729999; 18859053121399322885]; StrE false 31 [16657357230; 59446565287686008006]; StrE false 30 [3433195765; 8435551624179558902]; StrE false 29 [676235529; 48631245016883852511]; StrE false 29 [127111941; 63276549815203731675]; StrE false 28 [22766317; 90437591011678280300]; StrE false 27 [3878706; 1333811801989632940]; StrE false 26 [627437; 73745175438557146505]; StrE false 25 [96176; 58749260468683942165]; StrE false 25 [13938; 63586849343287527850]; StrE false 24 [1905; 28116188039729949850]; StrE false 23 [244; 96472081319393850695]; StrE false 22 [29; 53475357322196421715]; StrE false 21 [3; 32785955754613681320]; StrE false 20 [34907617736497938600]; IntE 3393796168826188475; IntE 304271380653382415; IntE 25008606629045130; IntE 1871392332785690; IntE 126445427890925; IntE 7637643295425; IntE 407340975756; IntE 18883356492; IntE 745395651; IntE 24359335; IntE 632710; IntE 12246; IntE 157; IntE 1];
[IntE 1; IntE 158; IntE 12403; IntE 644956; IntE 24992045; IntE 769754986; IntE 19628752143; IntE 426224332248; IntE 8044984271181; IntE 134083071186350; IntE 1997837760676615; IntE 26879998961830820; IntE 329279987282427545; IntE 3698067549479570890; StrE false 20 [38301413905324127075]; StrE false 21 [3; 67693573491111619920]; StrE false 22 [32; 86261313076810103035]; StrE false 23 [274; 49947438641590272410]; StrE false 24 [2150; 24588269359123800545]; StrE false 25 [15843; 91703037383017477700]; StrE false 26 [110115; 22336109811971470015]; StrE false 26 [723614; 32494435907241088670]; StrE false 27 [4506143; 75078987240546779445]; StrE false 28 [26645023; 91771402813667913240]; StrE false 29 [149878259; 53714140826882011975]; StrE false 29 [803347471; 11907794832087584186]; StrE false 30 [4109431294; 57066796641063411413]; StrE false 31 [20090552995; 67882116911865566908]; StrE false 31 [93995087229; 78305618409085330891]; StrE false 32 [421357287581; 78611392868313552270]; StrE false 33 [1811836336601; 68028989333748274761]; StrE false 33 [7481130680161; 77668084990960618368]; StrE false 34 [29690737386892; 5120212307874954148]; StrE false 35 [113364633659042; 37731719720977097656]; StrE false 35 [416781741393538; 15190146033004035500]; StrE false 36 [1476598169508535; 16673660231214297200]; StrE false 36 [5045043745820828; 48635005789982182100]; StrE false 37 [16635009107841650; 68472181253454762600]; StrE false 37 [52969371106548414; 2240366622842796700]; StrE false 38 [162982680327841273; 91508820377977836000]; StrE false 38 [484873473975327789; 89738740624484062100]; StrE false 39 [1395489510465577541; 65589546187539495800]; StrE false 39 [3887435064868394580; 32713735808145738300]; StrE false 40 [10487034128482180728; 32437054738253619600]; StrE false 40 [27409293744896608721; 75687756702253778500]; StrE false 40 [69436877487071408761; 78408983645709572200]; StrE false 41 [1; 70573199044327591088; 73048155477503949100]; StrE false 41 [4; 6472304105631706424; 20880710925115793600]; StrE false 41 [9; 39967203244273321105; 98286644014330272700]; StrE false 42 [21; 10130456262654394319; 55337364113802653000]; StrE false 42 [46; 84394652586579616; 62635453768089783540]; StrE false 42 [97; 41355188676065698011; 67933902097131306320]; StrE false 43 [200; 44711638237289032447; 10940913930635572620]; StrE false 43 [400; 89423276474578064894; 21881827861271145240]; StrE false 43 [779; 51656370922790681738; 75881331952471671300]; StrE false 44 [1473; 99495683199458743651; 47121064055582796640]; StrE false 44 [2711; 9786703027575903501; 81311957102232643820]; StrE false 44 [4851; 43828836996714774687; 45505607446100520520]; StrE false 44 [8448; 19426078218417107645; 39587350897519871940]; StrE false 45 [14318; 97332335963418826517; 62012459148338766000]; StrE false 45 [23626; 30598354339641063754; 7320557594758963900]; StrE false 45 [37957; 1617028283357774555; 72416633512891450200]; StrE false 45 [59384; 36400834572350066643; 63296991141136623700]; StrE false 45 [90490; 45944128872152482504; 58357319834112950400]; StrE false 46 [134321; 77573316294601341217; 74124146628761410750]; StrE false 46 [194249; 95259872795269631914; 88733381278516501700]; StrE false 46 [273715; 84229820756970844970; 97760673619727797850]; StrE false 46 [375848; 61927515069273399064; 62596745865894886600]; StrE false 46 [502973; 88755939283880578160; 1416233438182862950]; StrE false 46 [656052; 89681659935496406295; 67064652310673299500]; StrE false 46 [834124; 39738110489416859433; 6696486509284623650]; StrE false 47 [1033844; 32351460888291318733; 94215363560803477200]; StrE false 47 [1249228; 55758015240018676803; 51343564302637534950]; StrE false 47 [1471693; 91714922063583646645; 23500637397627780900]; StrE false 47 [1690459; 22915788856819053578; 98615597010788667250]; StrE false 47 [1893314; 33665683519637340008; 46449468652083307320]; StrE false 47 [2067698; 55187522791182884482; 92832972343722559310]; StrE false 47 [2201964; 69160738556844110748; 5354593924483764460]; StrE false 47 [2286655; 64128459270568884238; 36329770613886986170]; StrE false 47 [2315600; 64940211919563427076; 82359261381151378400]; StrE false 47 [2286655; 64128459270568884238; 36329770613886986170]; StrE false 47 [2201964; 69160738556844110748; 5354593924483764460]; StrE false 47 [2067698; 55187522791182884482; 92832972343722559310]; StrE false 47 [1893314; 33665683519637340008; 46449468652083307320]; StrE false 47 [1690459; 22915788856819053578; 98615597010788667250]; StrE false 47 [1471693; 91714922063583646645; 23500637397627780900]; StrE false 47 [1249228; 55758015240018676803; 51343564302637534950]; StrE false 47 [1033844; 32351460888291318733; 94215363560803477200]; StrE false 46 [834124; 39738110489416859433; 6696486509284623650]; StrE false 46 [656052; 89681659935496406295; 67064652310673299500]; StrE false 46 [502973; 88755939283880578160; 1416233438182862950]; StrE false 46 [375848; 61927515069273399064; 62596745865894886600]; StrE false 46 [273715; 84229820756970844970; 97760673619727797850]; StrE false 46 [194249; 95259872795269631914; 88733381278516501700]; StrE false 46 [134321; 77573316294601341217; 74124146628761410750]; StrE false 45 [90490; 45944128872152482504; 58357319834112950400]; StrE false 45 [59384; 36400834572350066643; 63296991141136623700]; StrE false 45 [37957; 1617028283357774555; 72416633512891450200]; StrE false 45 [23626; 30598354339641063754; 7320557594758963900]; StrE false 45 [14318; 97332335963418826517; 62012459148338766000]; StrE false 44 [8448; 19426078218417107645; 39587350897519871940]; StrE false 44 [4851; 43828836996714774687; 45505607446100520520]; StrE false 44 [2711; 9786703027575903501; 81311957102232643820]; StrE false 44 [1473; 99495683199458743651; 47121064055582796640]; StrE false 43 [779; 51656370922790681738; 75881331952471671300]; StrE false 43 [400; 89423276474578064894; 21881827861271145240]; StrE false 43 [200; 44711638237289032447; 10940913930635572620]; StrE false 42 [97; 41355188676065698011; 67933902097131306320]; StrE false 42 [46; 84394652586579616; 62635453768089783540]; StrE false 42 [21; 10130456262654394319; 55337364113802653000]; StrE false 41 [9; 39967203244273321105; 98286644014330272700]; StrE false 41 [4; 6472304105631706424; 20880710925115793600]; StrE false 41 [1; 70573199044327591088; 73048155477503949100]; StrE false 40 [69436877487071408761; 78408983645709572200]; StrE false 40 [27409293744896608721; 75687756702253778500]; StrE false 40 [10487034128482180728; 32437054738253619600]; StrE false 39 [3887435064868394580; 32713735808145738300]; StrE false 39 [1395489510465577541; 65589546187539495800]; StrE false 38 [484873473975327789; 89738740624484062100]; StrE false 38 [162982680327841273; 91508820377977836000]; StrE false 37 [52969371106548414; 2240366622842796700]; StrE false 37 [16635009107841650; 68472181253454762600]; StrE false 36 [5045043745820828; 48635005789982182100]; StrE false 36 [1476598169508535; 16673660231214297200]; StrE false 35 [416781741393538; 15190146033004035500]; StrE false 35 [113364633659042; 37731719720977097656]; StrE false 34 [29690737386892; 5120212307874954148]; StrE false 33 [7481130680161; 77668084990960618368]; StrE false 33 [1811836336601; 68028989333748274761]; StrE false 32 [421357287581; 78611392868313552270]; StrE false 31 [93995087229; 78305618409085330891]; StrE false 31 [20090552995; 67882116911865566908]; StrE false 30 [4109431294; 57066796641063411413]; StrE false 29 [803347471; 11907794832087584186]; StrE false 29 [149878259; 53714140826882011975]; StrE false 28 [26645023; 91771402813667913240]; StrE false 27 [4506143; 75078987240546779445]; StrE false 26 [723614; 32494435907241088670]; StrE false 26 [110115; 22336109811971470015]; StrE false 25 [15843; 91703037383017477700]; StrE false 24 [2150; 24588269359123800545]; StrE false 23 [274; 49947438641590272410]; StrE false 22 [32; 86261313076810103035]; StrE false 21 [3; 67693573491111619920]; StrE false 20 [38301413905324127075]; IntE 3698067549479570890; IntE 329279987282427545; IntE 26879998961830820; IntE 1997837760676615; IntE 134083071186350; IntE 8044984271181; IntE 426224332248; IntE 19628752143; IntE 769754986; IntE 24992045; IntE 644956; IntE 12403; IntE 158; IntE 1];
[IntE 1; IntE 159; IntE 12561; IntE 657359; IntE 25637001; IntE 794747031; IntE 20398507129; IntE 445853084391; IntE 8471208603429; IntE 142128055457531; IntE 2131920831862965; IntE 28877836722507435; IntE 356159986244258365; IntE 4027347536761998435; StrE false 20 [41999481454803697965]; StrE false 21 [4; 5994987396435746995]; StrE false 22 [36; 53954886567921722955]; StrE false 23 [307; 36208751718400375445]; StrE false 24 [2424; 74535708000714072955]; StrE false 25 [17994; 16291306742141278245]; StrE false 26 [125959; 14039147194988947715]; StrE false 26 [833729; 54830545719212558685]; StrE false 27 [5229758; 7573423147787868115]; StrE false 28 [31151167; 66850390054214692685]; StrE false 29 [176523283; 45485543640549925215]; StrE false 29 [953225730; 65621935658969596161]; StrE false 30 [4912778765; 68974591473150995599]; StrE false 31 [24199984290; 24948913552928978321]; StrE false 32 [114085640225; 46187735320950897799]; StrE false 32 [515352374811; 56917011277398883161]; StrE false 33 [2233193624183; 46640382202061827031]; StrE false 33 [9292967016763; 45697074324708893129]; StrE false 34 [37171868067053; 82788297298835572516]; StrE false 35 [143055371045934; 42851932028852051804]; StrE false 35 [530146375052580; 52921865753981133156]; StrE false 36 [1893379910902073; 31863806264218332700]; StrE false 36 [6521641915329363; 65308666021196479300]; StrE false 37 [21680052853662479; 17107187043436944700]; StrE false 37 [69604380214390064; 70712547876297559300]; StrE false 38 [215952051434389687; 93749187000820632700]; StrE false 38 [647856154303169063; 81247561002461898100]; StrE false 39 [1880362984440905331; 55328286812023557900]; StrE false 39 [5282924575333972121; 98303281995685234100]; StrE false 40 [14374469193350575308; 65150790546399357900]; StrE false 40 [37896327873378789450; 8124811440507398100]; StrE false 40 [96846171231968017483; 54096740347963350700]; StrE false 41 [2; 40010076531398999850; 51457139123213521300]; StrE false 41 [5; 77045503149959297512; 93928866402619742700]; StrE false 42 [13; 46439507349905027530; 19167354939446066300]; StrE false 42 [30; 50097659506927715425; 53624008128132925700]; StrE false 42 [67; 10214850915240973936; 17972817881892436540]; StrE false 43 [143; 41439583328652277628; 30569355865221089860]; StrE false 43 [297; 86066826913354730458; 78874816027766878940]; StrE false 43 [601; 34134914711867097341; 32822741791906717860]; StrE false 44 [1180; 41079647397368746632; 97763159813742816540]; StrE false 44 [2253; 51152054122249425390; 23002396008054467940]; StrE false 44 [4185; 9282386227034647153; 28433021157815440460]; StrE false 44 [7562; 53615540024290678189; 26817564548333164340]; StrE false 45 [13299; 63254915215131882332; 85092958343620392460]; StrE false 45 [22767; 16758414181835934163; 1599810045858637940]; StrE false 45 [37945; 27930690303059890271; 69333016743097729900]; StrE false 45 [61583; 32215382622998838309; 79737191107650414100]; StrE false 45 [97341; 38017862855707841199; 35713624654028073900]; StrE false 46 [149874; 82344963444502549148; 21654310975249574100]; StrE false 46 [224812; 23517445166753823722; 32481466462874361150]; StrE false 46 [328571; 72833189089870973132; 62857527907277912450]; StrE false 46 [467965; 79489693552240476885; 86494054898244299550]; StrE false 46 [649564; 46157335826244244035; 60357419485622684450]; StrE false 46 [878822; 50683454353153977224; 64012979304077749550]; StrE false 47 [1159026; 78437599219376984455; 68480885748856162450]; StrE false 47 [1490177; 29419770424913265728; 73761138819957923150]; StrE false 47 [1867968; 72089571377708178167; 911850070088100850]; StrE false 47 [2283072; 88109476128309995537; 45558927863441012150]; StrE false 47 [2720922; 47472937303602323448; 74844201700265315850]; StrE false 47 [3162153; 14630710920402700224; 22116234408416448150]; StrE false 47 [3583773; 56581472376456393587; 45065065662871974570]; StrE false 47 [3961012; 88853206310820224491; 39282440995805866630]; StrE false 47 [4269663; 24348261348026995230; 98187566268206323770]; StrE false 47 [4488620; 33289197827412994986; 41684364538370750630]; StrE false 47 [4602256; 29068671190132311315; 18689031995038364570]; StrE false 47 [4602256; 29068671190132311315; 18689031995038364570]; StrE false 47 [4488620; 33289197827412994986; 41684364538370750630]; StrE false 47 [4269663; 24348261348026995230; 98187566268206323770]; StrE false 47 [3961012; 88853206310820224491; 39282440995805866630]; StrE false 47 [3583773; 56581472376456393587; 45065065662871974570]; StrE false 47 [3162153; 14630710920402700224; 22116234408416448150]; StrE false 47 [2720922; 47472937303602323448; 74844201700265315850]; StrE false 47 [2283072; 88109476128309995537; 45558927863441012150]; StrE false 47 [1867968; 72089571377708178167; 911850070088100850]; StrE false 47 [1490177; 29419770424913265728; 73761138819957923150]; StrE false 47 [1159026; 78437599219376984455; 68480885748856162450]; StrE false 46 [878822; 50683454353153977224; 64012979304077749550]; StrE false 46 [649564; 46157335826244244035; 60357419485622684450]; StrE false 46 [467965; 79489693552240476885; 86494054898244299550]; StrE false 46 [328571; 72833189089870973132; 62857527907277912450]; StrE false 46 [224812; 23517445166753823722; 32481466462874361150]; StrE false 46 [149874; 82344963444502549148; 21654310975249574100]; StrE false 45 [97341; 38017862855707841199; 35713624654028073900]; StrE false 45 [61583; 32215382622998838309; 79737191107650414100]; StrE false 45 [37945; 27930690303059890271; 69333016743097729900]; StrE false 45 [22767; 16758414181835934163; 1599810045858637940]; StrE false 45 [13299; 63254915215131882332; 85092958343620392460]; StrE false 44 [7562; 53615540024290678189; 26817564548333164340]; StrE false 44 [4185; 9282386227034647153; 28433021157815440460]; StrE false 44 [2253; 51152054122249425390; 23002396008054467940]; StrE false 44 [1180; 41079647397368746632; 97763159813742816540]; StrE false 43 [601; 34134914711867097341; 32822741791906717860]; StrE false 43 [297; 86066826913354730458; 78874816027766878940]; StrE false 43 [143; 41439583328652277628; 30569355865221089860]; StrE false 42 [67; 10214850915240973936; 17972817881892436540]; StrE false 42 [30; 50097659506927715425; 53624008128132925700]; StrE false 42 [13; 46439507349905027530; 19167354939446066300]; StrE false 41 [5; 77045503149959297512; 93928866402619742700]; StrE false 41 [2; 40010076531398999850; 51457139123213521300]; StrE false 40 [96846171231968017483; 54096740347963350700]; StrE false 40 [37896327873378789450; 8124811440507398100]; StrE false 40 [14374469193350575308; 65150790546399357900]; StrE false 39 [5282924575333972121; 98303281995685234100]; StrE false 39 [1880362984440905331; 55328286812023557900]; StrE false 38 [647856154303169063; 81247561002461898100]; StrE false 38 [215952051434389687; 93749187000820632700]; StrE false 37 [69604380214390064; 70712547876297559300]; StrE false 37 [21680052853662479; 17107187043436944700]; StrE false 36 [6521641915329363; 65308666021196479300]; StrE false 36 [1893379910902073; 31863806264218332700]; StrE false 35 [530146375052580; 52921865753981133156]; StrE false 35 [143055371045934; 42851932028852051804]; StrE false 34 [37171868067053; 82788297298835572516]; StrE false 33 [9292967016763; 45697074324708893129]; StrE false 33 [2233193624183; 46640382202061827031]; StrE false 32 [515352374811; 56917011277398883161]; StrE false 32 [114085640225; 46187735320950897799]; StrE false 31 [24199984290; 24948913552928978321]; StrE false 30 [4912778765; 68974591473150995599]; StrE false 29 [953225730; 65621935658969596161]; StrE false 29 [176523283; 45485543640549925215]; StrE false 28 [31151167; 66850390054214692685]; StrE false 27 [5229758; 7573423147787868115]; StrE false 26 [833729; 54830545719212558685]; StrE false 26 [125959; 14039147194988947715]; StrE false 25 [17994; 16291306742141278245]; StrE false 24 [2424; 74535708000714072955]; StrE false 23 [307; 36208751718400375445]; StrE false 22 [36; 53954886567921722955]; StrE false 21 [4; 5994987396435746995]; StrE false 20 [41999481454803697965]; IntE 4027347536761998435; IntE 356159986244258365; IntE 28877836722507435; IntE 2131920831862965; IntE 142128055457531; IntE 8471208603429; IntE 445853084391; IntE 20398507129; IntE 794747031; IntE 25637001; IntE 657359; IntE 12561; IntE 159; IntE 1];
[IntE 1; IntE 160; IntE 12720; IntE 669920; IntE 26294360; IntE 820384032; IntE 21193254160; IntE 466251591520; IntE 8917061687820; IntE 150599264060960; IntE 2274048887320496; IntE 31009757554370400; IntE 385037822966765800; IntE 4383507523006256800; StrE false 20 [46026828991565696400]; StrE false 21 [4; 47994468851239444960]; StrE false 22 [40; 59949873964357469950]; StrE false 23 [343; 90163638286322098400]; StrE false 24 [2732; 10744459719114448400]; StrE false 25 [20418; 90827014742855351200]; StrE false 26 [143953; 30330453937130225960]; StrE false 26 [959688; 68869692914201506400]; StrE false 27 [6063487; 62403968867000426800]; StrE false 28 [36380925; 74423813202002560800]; StrE false 29 [207674451; 12335933694764617900]; StrE false 30 [1129749014; 11107479299519521376]; StrE false 30 [5866004496; 34596527132120591760]; StrE false 31 [29112763055; 93923505026079973920]; StrE false 32 [138285624515; 71136648873879876120]; StrE false 32 [629438015037; 3104746598349780960]; StrE false 33 [2748545998995; 3557393479460710192]; StrE false 34 [11526160640946; 92337456526770720160]; StrE false 34 [46464835083817; 28485371623544465645]; StrE false 35 [180227239112988; 25640229327687624320]; StrE false 35 [673201746098514; 95773797782833184960]; StrE false 36 [2423526285954653; 84785672018199465856]; StrE false 36 [8415021826231436; 97172472285414812000]; StrE false 37 [28201694768991842; 82415853064633424000]; StrE false 37 [91284433068052543; 87819734919734504000]; StrE false 38 [285556431648779752; 64461734877118192000]; StrE false 38 [863808205737558751; 74996748003282530800]; StrE false 39 [2528219138744074395; 36575847814485456000]; StrE false 39 [7163287559774877453; 53631568807708792000]; StrE false 40 [19657393768684547430; 63454072542084592000]; StrE false 40 [52270797066729364758; 73275601986906756000]; StrE false 41 [1; 34742499105346806933; 62221551788470748800]; StrE false 41 [3; 36856247763367017334; 5553879471176872000]; StrE false 41 [8; 17055579681358297363; 45386005525833264000]; StrE false 42 [19; 23485010499864325043; 13096221342065809000]; StrE false 42 [43; 96537166856832742955; 72791363067578992000]; StrE false 42 [97; 60312510422168689361; 71596826010025362240]; StrE false 43 [210; 51654434243893251564; 48542173747113526400]; StrE false 43 [441; 27506410242007008087; 9444171892987968800]; StrE false 43 [899; 20201741625221827800; 11697557819673596800]; StrE false 44 [1781; 75214562109235843974; 30585901605649534400]; StrE false 44 [3433; 92231701519618172023; 20765555821797284480]; StrE false 44 [6438; 60434440349284072543; 51435417165869908400]; StrE false 45 [11747; 62897926251325325342; 55250585706148604800]; StrE false 45 [20862; 16870455239422560522; 11910522891953556800]; StrE false 45 [36066; 80013329396967816495; 86692768389479030400]; StrE false 45 [60712; 44689104484895824434; 70932826788956367840]; StrE false 45 [99528; 60146072926058728581; 49070207850748144000]; StrE false 46 [158924; 70233245478706679509; 15450815761678488000]; StrE false 46 [247216; 20362826300210390347; 57367935629277648000]; StrE false 46 [374687; 5862408611256372870; 54135777438123935250]; StrE false 46 [553383; 96350634256624796854; 95338994370152273600]; StrE false 46 [796537; 52322882642111450018; 49351582805522212000]; StrE false 47 [1117530; 25647029378484720921; 46851474383866984000]; StrE false 47 [1528386; 96840790179398221260; 24370398789700434000]; StrE false 47 [2037849; 29121053572530961680; 32493865052933912000]; StrE false 47 [2649204; 7857369644290250184; 42242024568814085600]; StrE false 47 [3358146; 1509341802621443895; 74672988890046024000]; StrE false 47 [4151041; 60199047506018173704; 46470777933529113000]; StrE false 47 [5003995; 35582413431912318986; 20403129563706328000]; StrE false 47 [5883075; 62103648224005023672; 96960436108681764000]; StrE false 47 [6745926; 71212183296859093811; 67181300071288422720]; StrE false 47 [7544786; 45434678687276618078; 84347506658677841200]; StrE false 47 [8230676; 13201467658847219722; 37470007264012190400]; StrE false 47 [8758283; 57637459175439990217; 39871930806577074400]; StrE false 47 [9090876; 62357869017545306301; 60373396533409115200]; StrE false 47 [9204512; 58137342380264622630; 37378063990076729140]; StrE false 47 [9090876; 62357869017545306301; 60373396533409115200]; StrE false 47 [8758283; 57637459175439990217; 39871930806577074400]; StrE false 47 [8230676; 13201467658847219722; 37470007264012190400]; StrE false 47 [7544786; 45434678687276618078; 84347506658677841200]; StrE false 47 [6745926; 71212183296859093811; 67181300071288422720]; StrE false 47 [5883075; 62103648224005023672; 96960436108681764000]; StrE false 47 [5003995; 35582413431912318986; 20403129563706328000]; StrE false 47 [4151041; 60199047506018173704; 46470777933529113000]; StrE false 47 [3358146; 1509341802621443895; 74672988890046024000]; StrE false 47 [2649204; 7857369644290250184; 42242024568814085600]; StrE false 47 [2037849; 29121053572530961680; 32493865052933912000]; StrE false 47 [1528386; 96840790179398221260; 24370398789700434000]; StrE false 47 [1117530; 25647029378484720921; 46851474383866984000]; StrE false 46 [796537; 52322882642111450018; 49351582805522212000]; StrE false 46 [553383; 96350634256624796854; 95338994370152273600]; StrE false 46 [374687; 5862408611256372870; 54135777438123935250]; StrE false 46 [247216; 20362826300210390347; 57367935629277648000]; StrE false 46 [158924; 70233245478706679509; 15450815761678488000]; StrE false 45 [99528; 60146072926058728581; 49070207850748144000]; StrE false 45 [60712; 44689104484895824434; 70932826788956367840]; StrE false 45 [36066; 80013329396967816495; 86692768389479030400]; StrE false 45 [20862; 16870455239422560522; 11910522891953556800]; StrE false 45 [11747; 62897926251325325342; 55250585706148604800]; StrE false 44 [6438; 60434440349284072543; 51435417165869908400]; StrE false 44 [3433; 92231701519618172023; 20765555821797284480]; StrE false 44 [1781; 75214562109235843974; 30585901605649534400]; StrE false 43 [899; 20201741625221827800; 11697557819673596800]; StrE false 43 [441; 27506410242007008087; 9444171892987968800]; StrE false 43 [210; 51654434243893251564; 48542173747113526400]; StrE false 42 [97; 60312510422168689361; 71596826010025362240]; StrE false 42 [43; 96537166856832742955; 72791363067578992000]; StrE false 42 [19; 23485010499864325043; 13096221342065809000]; StrE false 41 [8; 17055579681358297363; 45386005525833264000]; StrE false 41 [3; 36856247763367017334; 5553879471176872000]; StrE false 41 [1; 34742499105346806933; 62221551788470748800]; StrE false 40 [52270797066729364758; 73275601986906756000]; StrE false 40 [19657393768684547430; 63454072542084592000]; StrE false 39 [7163287559774877453; 53631568807708792000]; StrE false 39 [2528219138744074395; 36575847814485456000]; StrE false 38 [863808205737558751; 74996748003282530800]; StrE false 38 [285556431648779752; 64461734877118192000]; StrE false 37 [91284433068052543; 87819734919734504000]; StrE false 37 [28201694768991842; 82415853064633424000]; StrE false 36 [8415021826231436; 97172472285414812000]; StrE false 36 [2423526285954653; 84785672018199465856]; StrE false 35 [673201746098514; 95773797782833184960]; StrE false 35 [180227239112988; 25640229327687624320]; StrE false 34 [46464835083817; 28485371623544465645]; StrE false 34 [11526160640946; 92337456526770720160]; StrE false 33 [2748545998995; 3557393479460710192]; StrE false 32 [629438015037; 3104746598349780960]; StrE false 32 [138285624515; 71136648873879876120]; StrE false 31 [29112763055; 93923505026079973920]; StrE false 30 [5866004496; 34596527132120591760]; StrE false 30 [1129749014; 11107479299519521376]; StrE false 29 [207674451; 12335933694764617900]; StrE false 28 [36380925; 74423813202002560800]; StrE false 27 [6063487; 62403968867000426800]; StrE false 26 [959688; 68869692914201506400]; StrE false 26 [143953; 30330453937130225960]; StrE false 25 [20418; 90827014742855351200]; StrE false 24 [2732; 10744459719114448400]; StrE false 23 [343; 90163638286322098400]; StrE false 22 [40; 59949873964357469950]; StrE false 21 [4; 47994468851239444960]; StrE false 20 [46026828991565696400]; IntE 4383507523006256800; IntE 385037822966765800; IntE 31009757554370400; IntE 2274048887320496; IntE 150599264060960; IntE 8917061687820; IntE 466251591520; IntE 21193254160; IntE 820384032; IntE 26294360; IntE 669920; IntE 12720; IntE 160; IntE 1]
].
