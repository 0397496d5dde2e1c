(** * Model of the constants read from decimal literals
      (libs/e_float/src/functions/constants/constants.cpp).

    Paths are relative to /repo/libs/e_float/src/functions. *)

From Coq Require Import ZArith List Bool Ascii String.
From Verif Require Import Model ModelStr.
Import ListNotations.
Open Scope Z_scope.

(** Concatenated pieces of a literal, as characters. *)
Definition pieces (l : list string) : str := flat_map list_ascii_of_string l.

(* constants/constants.cpp 60-71 *)
Definition sqrt2_text : str := pieces [
  "1.";
  "4142135623730950488016887242096980785696718753769480731766797379907324784621070388503875343276415727";
  "3501384623091229702492483605585073721264412149709993583141322266592750559275579995050115278206057147";
  "0109559971605970274534596862014728517418640889198609552329230484308714321450839762603627995251407989";
  "6872533965463318088296406206152583523950547457502877599617298355752203375318570113543746034084988471";
  "6038689997069900481503054402779031645424782306849293691862158057846311159666871301301561856898723723";
  "5288509264861249497715421833420428568606014682472077143585487415565706967765372022648544701585880162";
  "0758474922657226002085584466521458398893944370926591800311388246468157082630100594858704003186480342";
  "1948972782906410450726368813137398552561173220402450912277002269411275736272804957381089675040183698";
  "6836845072579936472906076299694138047565482372899718032680247442062926912485905218100445984215059112";
  "0249441341728531478105803603371077309182869314710171111683916581726889419758716582152128229518488472";
  "0896946338628915628827659526351405422676532396946175112916024087155101351504553812875600526314680171"]%string.

(* constants/constants.cpp 84-95 *)
Definition pi_text : str := pieces [
  "3.";
  "1415926535897932384626433832795028841971693993751058209749445923078164062862089986280348253421170679";
  "8214808651328230664709384460955058223172535940812848111745028410270193852110555964462294895493038196";
  "4428810975665933446128475648233786783165271201909145648566923460348610454326648213393607260249141273";
  "7245870066063155881748815209209628292540917153643678925903600113305305488204665213841469519415116094";
  "3305727036575959195309218611738193261179310511854807446237996274956735188575272489122793818301194912";
  "9833673362440656643086021394946395224737190702179860943702770539217176293176752384674818467669405132";
  "0005681271452635608277857713427577896091736371787214684409012249534301465495853710507922796892589235";
  "4201995611212902196086403441815981362977477130996051870721134999999837297804995105973173281609631859";
  "5024459455346908302642522308253344685035261931188171010003137838752886587533208381420617177669147303";
  "5982534904287554687311595628638823537875937519577818577805321712268066130019278766111959092164201989";
  "3809525720106548586327886593615338182796823030195203530185296899577362259941389124972177528347913152"]%string.

(* constants/constants.cpp 168-179 *)
Definition e_text : str := pieces [
  "2.";
  "7182818284590452353602874713526624977572470936999595749669676277240766303535475945713821785251664274";
  "2746639193200305992181741359662904357290033429526059563073813232862794349076323382988075319525101901";
  "1573834187930702154089149934884167509244761460668082264800168477411853742345442437107539077744992069";
  "5517027618386062613313845830007520449338265602976067371132007093287091274437470472306969772093101416";
  "9283681902551510865746377211125238978442505695369677078544996996794686445490598793163688923009879312";
  "7736178215424999229576351482208269895193668033182528869398496465105820939239829488793320362509443117";
  "3012381970684161403970198376793206832823764648042953118023287825098194558153017567173613320698112509";
  "9618188159304169035159888851934580727386673858942287922849989208680582574927961048419844436346324496";
  "8487560233624827041978623209002160990235304369941849146314093431738143640546253152096183690888707016";
  "7683964243781405927145635490613031072085103837505101157477041718986106873969655212671546889570350354";
  "0212340784981933432106817012100562788023519303322474501585390473041995777709350366041699732972508869"]%string.

(* constants/constants.cpp 192-203 *)
Definition ln2_text : str := pieces [
  "0.";
  "6931471805599453094172321214581765680755001343602552541206800094933936219696947156058633269964186875";
  "4200148102057068573368552023575813055703267075163507596193072757082837143519030703862389167347112335";
  "0115364497955239120475172681574932065155524734139525882950453007095326366642654104239157814952043740";
  "4303855008019441706416715186447128399681717845469570262716310645461502572074024816377733896385506952";
  "6066834113727387372292895649354702576265209885969320196505855476470330679365443254763274495125040606";
  "9438147104689946506220167720424524529612687946546193165174681392672504103802546259656869144192871608";
  "2938031727143677826548775664850856740776484514644399404614226031930967354025744460703080960850474866";
  "3852313818167675143866747664789088143714198549423151997354880375165861275352916610007105355824987941";
  "4729509293113897155998205654392871700072180857610252368892132449713893203784393530887748259701715591";
  "0708823683627589842589185353024363421436706118923678919237231467232172053401649256872747782344535347";
  "6481149418642386776774406069562657379600867076257199184734022651462837904883062033061144630073719489"]%string.

(* constants/constants.cpp 216-227 *)
Definition ln10_text : str := pieces [
  "2.";
  "3025850929940456840179914546843642076011014886287729760333279009675726096773524802359972050895982983";
  "4196778404228624863340952546508280675666628736909878168948290720832555468084379989482623319852839350";
  "5308965377732628846163366222287698219886746543667474404243274365155048934314939391479619404400222105";
  "1017141748003688084012647080685567743216228355220114804663715659121373450747856947683463616792101806";
  "4450706480002775026849167465505868569356734206705811364292245544057589257242082413146956890167589402";
  "5677631135691929203337658714166023010570308963457207544037084746994016826928280848118428931484852494";
  "8644871927809676271275775397027668605952496716674183485704422507197965004714951050492214776567636938";
  "6629769795221107182645497347726624257094293225827985025855097852653832076067263171643095059950878075";
  "2371033310119785754733154142180842754386359177811705430982748238504564801909561029929182431823752535";
  "7709750539565187697510374970888692180205189339507238539205144634197265287286965110862571492198849978";
  "7488737713456862091670584980782805975119385444500997813114691593466624107184669231010759843831919129"]%string.

(* constants/constants.cpp 326-337 *)
Definition phi_text : str := pieces [
  "1.";
  "6180339887498948482045868343656381177203091798057628621354486227052604628189024497072072041893911374";
  "8475408807538689175212663386222353693179318006076672635443338908659593958290563832266131992829026788";
  "0675208766892501711696207032221043216269548626296313614438149758701220340805887954454749246185695364";
  "8644492410443207713449470495658467885098743394422125448770664780915884607499887124007652170575179788";
  "3416625624940758906970400028121042762177111777805315317141011704666599146697987317613560067087480710";
  "1317952368942752194843530567830022878569978297783478458782289110976250030269615617002504643382437764";
  "8610283831268330372429267526311653392473167111211588186385133162038400522216579128667529465490681131";
  "7159934323597349498509040947621322298101726107059611645629909816290555208524790352406020172799747175";
  "3427775927786256194320827505131218156285512224809394712341451702237358057727861600868838295230459264";
  "7878017889921990270776903895321968198615143780314997411069260886742962267575605231727775203536139362";
  "1076738937645560606059216589466759551900400555908950229530942312482355212212415444006470340565734798"]%string.

Section FixedDigits.
Variable d10 : Z.

(* constants/constants.cpp 56-76: ef::sqrt2() *)
Definition const_sqrt2 : io ef := of_string d10 sqrt2_text.
(* constants/constants.cpp 78-101: ef::pi() for fewer than 1010 digits; for more
   digits (102-157) pi is computed by an AGM iteration, which is not modelled *)
Definition const_pi : io ef := of_string d10 pi_text.
(* constants/constants.cpp 164-184: ef::e() *)
Definition const_e : io ef := of_string d10 e_text.
(* constants/constants.cpp 186-208: ef::ln2() *)
Definition const_ln2 : io ef := of_string d10 ln2_text.
(* constants/constants.cpp 210-232: ef::ln10() *)
Definition const_ln10 : io ef := of_string d10 ln10_text.
(* constants/constants.cpp 322-342: ef::phi() *)
Definition const_phi : io ef := of_string d10 phi_text.

End FixedDigits.
