(** * The decimal literals of the constants (proofs only) *)

From Coq Require Import ZArith List Bool Ascii String Reals Lra Lia Psatz.
From Verif Require Import Model Spec SpecText Limbs Value CmpProofs AddProofs Decide OrderProofs AddExtra ModelStr StrProofs StrOut StrFmt StrAny LimitsProofs
  ModelConst ExpReal ConstReal SeriesFloat.
Import ListNotations.
Open Scope R_scope.
Local Notation length := List.length.
Local Notation p10 := (powerRZ 10).
Local Notation exp := Rtrigo_def.exp.
Local Notation sqrt := R_sqrt.sqrt.

(** ** The literals as digits *)

Definition digit_of (c : ascii) : Z := (Z.of_nat (nat_of_ascii c) - 48)%Z.

(* a digit, the point, further digits *)
Definition lit_of (s : str) : literal :=
  match s with
  | c :: _ :: r => mkliteral None [digit_of c] true (map digit_of r) None
  | _ => mkliteral None [] true [] None
  end.

Definition is_decb (z : Z) : bool := (0 <=? z)%Z && (z <=? 9)%Z.

Definition lit_check (s : str) : bool :=
  (if list_eq_dec ascii_dec (text (lit_of s)) s then true else false) &&
  forallb is_decb (l_int (lit_of s)) && forallb is_decb (l_frac (lit_of s)) &&
  (Nat.eqb (length (l_frac (lit_of s))) 1100) && (Nat.eqb (length (l_int (lit_of s))) 1).

Definition lit_int (s : str) : Z := decimal_Z (l_int (lit_of s) ++ l_frac (lit_of s)).

Lemma lit_checks : forallb lit_check [sqrt2_text; pi_text; e_text; ln2_text; ln10_text; phi_text] = true.
Proof. vm_compute. reflexivity. Qed.

Lemma is_decb_ok l : forallb is_decb l = true -> Forall is_decimal l.
Proof. intro H. apply Forall_forall. intros z Hz. rewrite forallb_forall in H. specialize (H z Hz). unfold is_decb in H. unfold is_decimal. lia. Qed.

Lemma lit_facts s : lit_check s = true -> text (lit_of s) = s /\ valid_literal (lit_of s) /\ l_exponent (lit_of s) = 0%Z /\
  literal_value (lit_of s) = IZR (lit_int s) * p10 (-1100) /\ (Z.of_nat (length s) < 2147483600)%Z.
Proof.
  unfold lit_check. intro H. apply andb_true_iff in H. destruct H as [H HL1]. apply andb_true_iff in H. destruct H as [H HL].
  apply andb_true_iff in H. destruct H as [H HF]. apply andb_true_iff in H. destruct H as [HT HI].
  apply is_decb_ok in HI, HF. apply Nat.eqb_eq in HL, HL1. destruct (list_eq_dec ascii_dec (text (lit_of s)) s) as [E|]; [|discriminate].
  assert (Sg : l_sign (lit_of s) = None /\ l_exp (lit_of s) = None /\ l_point (lit_of s) = true) by (destruct s as [|? [|? ?]]; split; [|split| |split| |split]; reflexivity).
  destruct Sg as (S1 & S2 & S3).
  split; [exact E|]. split; [|split; [|split]].
  - split; [exact HI|]. split; [exact HF|]. split; [|split].
    + intro C. apply (f_equal (@length Z)) in C. rewrite app_length, HL, HL1 in C. discriminate C.
    + rewrite S3. discriminate.
    + rewrite S2. discriminate.
  - unfold l_exponent. rewrite S2. reflexivity.
  - unfold literal_value, l_exponent, lit_int. rewrite S1, S2, HL. cbn [negative]. rewrite Rmult_1_l. reflexivity.
  - rewrite <- E. unfold text. rewrite S1, S2, S3. cbn [sign_text]. rewrite !app_length. cbn [length]. rewrite !map_length, HL, HL1. cbn [Nat.add]. lia.
Qed.

(** ** The digits are right *)

Definition scale : Z := 10 ^ 1120.

(* the deviation of the literal from the value computed with integers, in
   units of 10^-1120, lies between 10^17 and 10^20; the slack covers the error
   of the computation *)
Definition close_check (s : str) (z : Z) : bool :=
  let e := Z.abs (z - lit_int s * 10 ^ 20) in (100000000001000000 <=? e)%Z && (e <=? 99999999999990000000)%Z.

(* [v] is the sum of [m] terms, and these are enough *)
Definition series_check (S0 n : Z) (alt : bool) (m : nat) (v : Z) : bool :=
  (Nat.leb m 1000) && (0 <=? S0)%Z && (S0 <=? n ^ (2 * Z.of_nat m + 1))%Z && (inverse_series S0 n alt m =? v)%Z.

Definition a31 : Z := 322692605687855858364619578419964640644543126748769214176889064309506034762560654598518375393815252900347959973046571463250357438886631037221322591546603547837839383164605639641807997244321044617403374755306002612105821473732571199535828620507734039759201280218863804463961884127434240158170213116492362154811088486263376373680674886608478029824820604513467788828605807250328843299767558702742287736073578110146269854256430140997953068540454930551119473862724019954959362510857445882342913505215838934917896209182078391472933158385789908994864710213613824748560022607573240450720681701941079164086320528574942554039358778658016987579330209860702460125801196362767757643012439204747061107452725469828146746087603465858977920960302150202012659273159307111813170732533991255442244513521279468635168392987756238236232460959325342702491005293325159247968627475190821639209343202328266466636284508786498298351075013609685638976293727365289426366258160222144967549788087699082718476835334011685998294926718045263597390766299686562988577277016405070524918744604062389937078312667116878874447735526460491102215531107536740529807.
Lemma a31_checked : series_check scale 31 false 376 a31 = true.
Proof. vm_compute. reflexivity. Qed.
Definition a49 : Z := 204109972601275647772885325776599350886058738167601148642807104153414081438112077845310101916855350929790669578806014280117227627222204535582095546274530793545068966629354092783454488443235348987138448621561770839582490165591826768405869145469182075581117406683986363879644475513094476558488614261047368592392996809857311768369467596224893783130302925406881809089980354566080504639404084646002905682707767025282992422137357436146482065811360118572331080253633113328432411414448180472749199467833945848175008010063691130529427849649908586915101834762068726570761593892620454247620420634917841793293328805724198550164632948442788274798535256183204249404006681866368899753749382909019284024813324550904215054647802794364441371730066599768719703982321928867013995222849135429175875684264191049715306133536846273232334389480412372115560061605511504034631590495325422731083155041752005371186608001057006781371582404819517972295929418576510589490511574864608180171347702834120382399036715941804324870524947927999545088102225049947700913369222872544803465294683662582350366887330753048242568777187998419227097621173110448719120.
Lemma a49_checked : series_check scale 49 false 332 a49 = true.
Proof. vm_compute. reflexivity. Qed.
Definition a161 : Z := 62112599992785766556465643156044533811801697907295342717047025511118486439996202204379165880369970919539445799165785675029653656824404282234539295325500335687805779614282411513868923397678103366033628060623872431180800410592091878626726568907874013803139585771019008661959215604336377296480065699339591293953802089241004966660387125605341911499158642167558196024196109234444195370931844266327403636749819936082506092710948871583217773324425129192991430506019689165546313106676379732672444293523809520630140669618909379381055748390850116841292529141775139926559611882135188206528141065389652616429051246790090980913412360522590712793460879433772951433020174413932387737947674631301501221414908064705030039946223383640713677336930468049832858367915454494035190925591559043264185271510147912922846659491707504216756770554217256258909004473175756459704305680499265706229429464621358510683903243906018653346324907482801862326963164024200926233996021194594595304453535183968361789264570215183426251718635955738187918748038594346959623449213260608554018391437495686607063505523886919922558340868762717374484437854629607607443.
Lemma a161_checked : series_check scale 161 false 255 a161 = true.
Proof. vm_compute. reflexivity. Qed.
Definition a5 : Z := 1973955598498807583700497651947902934475851037878521015176889402410339699782437857326978280372880441126281180736913601044564798867942393557475654952163032700522107470015645015560061286185526633257318692806643896806189528405825931124251613297313993397113233537821796084176648310525473039665725650488878155309384290579311695934192851806364919697519401708560949527368673738508400812367856158009329822514023246675549211026704574378815474839079978985020075223696837961392278354193255722328413846477441352909705465122438302697560518377574220877835853152464749330914587633823112490332030126805100670223312575050942448460267162254894079226140467995062365969282873058287872053603034570766066681374312566267431408992605741703545394046813622411076808100362137599259589071666485145255706799548810043132954668389229036883093278538312521768924841625558744394478718875141137978430670810332362273330875483507230420969155374569324447556530899212193854144645083686720518519002662277446939325408961915860225494493742927227711603918831354048385485517712996428390284910412614010390416513054369418888263784377739473239354104110230138924510832.
Lemma a5_checked : series_check scale 5 true 801 a5 = true.
Proof. vm_compute. reflexivity. Qed.
Definition a239 : Z := 41840760020747238645382149592854527410480653076319508270196128871817783414228932737826058136229094549754506664448637560524583947893118650589221288330928008462719623307733759476346033184734145703319860154548148059924498302114603912539495276077968815588812733978533465180457425481358674644751979102328309770020646528276346532969104818386543560789195914512322209446368627661552083167964264657465511032510343526282445126935567049968444524790433177283930708631401938695195037058641077085585540452235538814237677083651569182527020022930895449500435854409344964401424187249509228386239545533356511719737470202349475977909746950111888547667397957315370930327821130898425830836771909100839098516551041922416780920532686491626674027168444244773157964520275495741588258290940585090382073317590843199778432760428586383734746882493480769928733140522389423086905073039544069125801024860616072369950391084748815617625864551225901554295697941615710694111350366987619431559318681720740769131027971912912204933921211565608272672661701535344777230468531143640563886770367786929243562783421177018327013206519684259587627503777449562666619.
Lemma a239_checked : series_check scale 239 true 235 a239 = true.
Proof. vm_compute. reflexivity. Qed.

Lemma ln2_checked : close_check ln2_text (14 * a31 + 10 * a49 + 6 * a161) = true.
Proof. vm_compute. reflexivity. Qed.
Lemma ln10_checked : close_check ln10_text (46 * a31 + 34 * a49 + 20 * a161) = true.
Proof. vm_compute. reflexivity. Qed.
Lemma pi_checked : close_check pi_text (16 * a5 - 4 * a239) = true.
Proof. vm_compute. reflexivity. Qed.

Definition e_check (S0 : Z) (m : nat) : bool :=
  (Nat.leb 1 m) && (Nat.leb m 1000) && (0 <=? S0)%Z && let '(t, z) := e_int S0 m in (Z.abs t <=? 1000)%Z && close_check e_text z.

Lemma e_checked : e_check scale 500 = true.
Proof. vm_compute. reflexivity. Qed.

(* [S0] times the root of [a] lies between [lo] and [hi] *)
Definition root_check (a lo hi S0 : Z) : bool :=
  let w := (a * (S0 * S0))%Z in let l2 := (lo * lo)%Z in
  (0 <=? lo)%Z && (0 <=? hi)%Z && (l2 <=? w)%Z && (w <=? l2 + (hi - lo) * (hi + lo))%Z.

Lemma sqrt2_checked : root_check 2 (lit_int sqrt2_text * 10 ^ 20 + 10 ^ 17) (lit_int sqrt2_text * 10 ^ 20 + 10 ^ 20) scale = true.
Proof. vm_compute. reflexivity. Qed.

Lemma phi_checked : root_check 5 (2 * (lit_int phi_text * 10 ^ 20 - 10 ^ 20) - scale) (2 * (lit_int phi_text * 10 ^ 20 - 10 ^ 17) - scale) scale = true.
Proof. vm_compute. reflexivity. Qed.

(** From the integers to the reals *)

Definition within (s : str) (r : R) : Prop :=
  p10 (-1103) <= Rabs (literal_value (lit_of s) - r) <= p10 (-1100).

Lemma scale_R : IZR scale = p10 1120.
Proof. unfold scale. symmetry. apply (p10_nonneg 1120). lia. Qed.

Lemma close_within s z r : lit_check s = true -> close_check s z = true -> Rabs (IZR z - IZR scale * r) <= 1000000 -> within s r.
Proof.
  intros L C H. destruct (lit_facts s L) as (_ & _ & _ & V & _). unfold within. rewrite V.
  unfold close_check in C. apply andb_true_iff in C. destruct C as [C1 C2]. apply Z.leb_le in C1, C2.
  set (n := lit_int s) in *. rewrite scale_R in H. apply IZR_le in C1, C2. rewrite abs_IZR, minus_IZR, mult_IZR in C1, C2.
  rewrite <- (p10_nonneg 20) in C1, C2 by lia. pose proof (p10_pos 1120) as P.
  assert (E : IZR n * p10 20 - p10 1120 * r = p10 1120 * (IZR n * p10 (-1100) - r)).
  { rewrite Rmult_minus_distr_l, (Rmult_comm (p10 1120) (IZR n * _)), Rmult_assoc, <- p10_add. reflexivity. }
  set (x := IZR n * p10 (-1100) - r) in *.
  assert (B : IZR 100000000000000000 <= Rabs (p10 1120 * x) <= IZR 100000000000000000000).
  { rewrite <- E. set (w := p10 1120 * r) in *. set (y := IZR n * p10 20) in *.
    assert (T1 : Rabs (IZR z - y) <= Rabs (IZR z - w) + Rabs (y - w)).
    { replace (IZR z - y) with ((IZR z - w) + - (y - w)) by ring. eapply Rle_trans; [apply Rabs_triang|]. rewrite Rabs_Ropp. lra. }
    assert (T2 : Rabs (y - w) <= Rabs (IZR z - w) + Rabs (IZR z - y)).
    { replace (y - w) with ((IZR z - w) + - (IZR z - y)) by ring. eapply Rle_trans; [apply Rabs_triang|]. rewrite Rabs_Ropp. lra. }
    lra. }
  rewrite Rabs_mult, (Rabs_pos_eq (p10 1120)) in B by lra.
  change 100000000000000000%Z with (10 ^ 17)%Z in B. change 100000000000000000000%Z with (10 ^ 20)%Z in B.
  rewrite <- (p10_nonneg 17), <- (p10_nonneg 20) in B by lia. replace 17%Z with (1120 + -1103)%Z in B by reflexivity. replace 20%Z with (1120 + -1100)%Z in B by reflexivity.
  rewrite !p10_add in B. split; apply Rmult_le_reg_l with (p10 1120); lra.
Qed.

Lemma lit_check_of s : In s [sqrt2_text; pi_text; e_text; ln2_text; ln10_text; phi_text] -> lit_check s = true.
Proof. pose proof lit_checks as H. rewrite forallb_forall in H. apply H. Qed.

Ltac ands H := repeat match type of H with (_ && _ = true) => let K := fresh "K" in apply andb_true_iff in H; destruct H as [H K] end.

Lemma nat_R m k : (m <= k)%nat -> INR m <= IZR (Z.of_nat k).
Proof. intro H. apply le_INR in H. rewrite !INR_IZR_INZ in *. exact H. Qed.

Lemma series_close S0 n alt m v : series_check S0 n alt m v = true -> (2 <= n)%Z ->
  Rabs (IZR v - IZR S0 * (if alt then atan (/ IZR n) else artanh (/ IZR n))) <= 5000.
Proof.
  unfold series_check. intros H Hn. ands H. apply Nat.leb_le in H. apply Z.leb_le in K1, K0. apply Z.eqb_eq in K. subst v.
  eapply Rle_trans; [apply (inverse_series_ok S0 n alt m Hn (conj K1 K0))|].
  apply nat_R in H. cbn [Z.of_nat Pos.of_succ_nat Pos.succ] in H. lra.
Qed.

Lemma ln_artanh : ln 2 = 14 * artanh (/ 31) + 10 * artanh (/ 49) + 6 * artanh (/ 161) /\ ln 10 = 46 * artanh (/ 31) + 34 * artanh (/ 49) + 20 * artanh (/ 161).
Proof.
  rewrite !artanh_inv by lra.
  replace (31 + 1) with (2 * 2 * 2 * 2 * 2) by ring. replace (31 - 1) with (2 * 3 * 5) by ring. replace (49 + 1) with (2 * 5 * 5) by ring.
  replace (49 - 1) with (2 * 2 * 2 * 2 * 3) by ring. replace (161 + 1) with (2 * 3 * 3 * 3 * 3) by ring. replace (161 - 1) with (2 * 2 * 2 * 2 * 2 * 5) by ring.
  replace (ln 10) with (ln (2 * 5)) by (f_equal; ring). rewrite !ln_mult by lra. split; field.
Qed.

Lemma combine3 x y z a b c p q r S0 : 0 <= p <= 50 -> 0 <= q <= 50 -> 0 <= r <= 50 ->
  Rabs (a - S0 * x) <= 5000 -> Rabs (b - S0 * y) <= 5000 -> Rabs (c - S0 * z) <= 5000 ->
  Rabs (p * a + q * b + r * c - S0 * (p * x + q * y + r * z)) <= 1000000.
Proof.
  intros Hp Hq Hr A B C. replace (p * a + q * b + r * c - S0 * (p * x + q * y + r * z)) with (p * (a - S0 * x) + (q * (b - S0 * y) + r * (c - S0 * z))) by ring.
  eapply Rle_trans; [apply Rabs_triang|]. eapply Rle_trans; [apply Rplus_le_compat_l, Rabs_triang|]. rewrite !Rabs_mult, (Rabs_pos_eq p), (Rabs_pos_eq q), (Rabs_pos_eq r) by lra.
  pose proof (Rabs_pos (a - S0 * x)). pose proof (Rabs_pos (b - S0 * y)). pose proof (Rabs_pos (c - S0 * z)). nra.
Qed.

Lemma ln2_within : within ln2_text (ln 2).
Proof.
  apply (close_within _ (14 * a31 + 10 * a49 + 6 * a161)); [apply lit_check_of; right; right; right; left; reflexivity|exact ln2_checked|].
  pose proof (series_close _ _ _ _ _ a31_checked ltac:(lia)) as A. pose proof (series_close _ _ _ _ _ a49_checked ltac:(lia)) as B. pose proof (series_close _ _ _ _ _ a161_checked ltac:(lia)) as C.
  rewrite !plus_IZR, !mult_IZR, (proj1 ln_artanh). apply combine3; try lra; assumption.
Qed.

Lemma ln10_within : within ln10_text (ln 10).
Proof.
  apply (close_within _ (46 * a31 + 34 * a49 + 20 * a161)); [apply lit_check_of; right; right; right; right; left; reflexivity|exact ln10_checked|].
  pose proof (series_close _ _ _ _ _ a31_checked ltac:(lia)) as A. pose proof (series_close _ _ _ _ _ a49_checked ltac:(lia)) as B. pose proof (series_close _ _ _ _ _ a161_checked ltac:(lia)) as C.
  rewrite !plus_IZR, !mult_IZR, (proj2 ln_artanh). apply combine3; try lra; assumption.
Qed.

Lemma pi_within : within pi_text PI.
Proof.
  apply (close_within _ (16 * a5 - 4 * a239)); [apply lit_check_of; right; left; reflexivity|exact pi_checked|].
  pose proof (series_close _ _ _ _ _ a5_checked ltac:(lia)) as A. pose proof (series_close _ _ _ _ _ a239_checked ltac:(lia)) as B. cbv iota in A, B.
  rewrite minus_IZR, !mult_IZR. replace PI with (4 * (PI / 4)) by field. rewrite Machin_4_5_239.
  set (x := IZR a5) in *. set (y := IZR a239) in *. revert A B. generalize (atan (/ 5)) (atan (/ 239)). intros p q A B.
  replace (16 * x - 4 * y - IZR scale * (4 * (4 * p - q))) with (16 * (x - IZR scale * p) + - (4 * (y - IZR scale * q))) by ring.
  eapply Rle_trans; [apply Rabs_triang|]. rewrite Rabs_Ropp, !Rabs_mult, (Rabs_pos_eq 16), (Rabs_pos_eq 4) by lra. lra.
Qed.

Lemma e_series S0 m : e_check S0 m = true -> exists z, close_check e_text z = true /\ Rabs (IZR z - IZR S0 * exp 1) <= 1000000.
Proof.
  unfold e_check. intro H. ands H. apply Nat.leb_le in H, K1. apply Z.leb_le in K0. pose proof (e_int_ok S0 m K0 H) as E. destruct (e_int S0 m) as [t z].
  ands K. exists z. split; [assumption|]. apply Z.leb_le in K. apply IZR_le in K. rewrite abs_IZR in K. apply nat_R in K1. cbn [Z.of_nat Pos.of_succ_nat Pos.succ] in *. 
  eapply Rle_trans; [exact E|]. lra.
Qed.

Lemma e_within : within e_text (exp 1).
Proof. destruct (e_series _ _ e_checked) as (z & H & E). apply (close_within _ z); [apply lit_check_of; right; right; left; reflexivity|exact H|exact E]. Qed.

Lemma root_bounds a lo hi S0 : root_check a lo hi S0 = true -> (0 < S0)%Z -> (0 < a)%Z -> IZR lo <= IZR S0 * sqrt (IZR a) <= IZR hi.
Proof.
  unfold root_check. intros H HS Ha. apply andb_true_iff in H. destruct H as [H H3]. apply andb_true_iff in H. destruct H as [H H2]. apply andb_true_iff in H. destruct H as [H0 H1].
  apply Z.leb_le in H0, H1, H2, H3. apply IZR_le in H0, H1, H2. replace (lo * lo + (hi - lo) * (hi + lo))%Z with (hi * hi)%Z in H3 by ring. apply IZR_le in H3. apply IZR_lt in HS, Ha. rewrite !mult_IZR in H2, H3.
  set (w := IZR a) in *. assert (Hs : 0 < sqrt w) by (apply sqrt_lt_R0; lra). assert (Sq : sqrt w * sqrt w = w) by (apply sqrt_sqrt; lra).
  assert (E : IZR S0 * sqrt w * (IZR S0 * sqrt w) = w * (IZR S0 * IZR S0)) by (rewrite <- Sq at 3; ring).
  split; apply Rsqr_incr_0_var; unfold Rsqr; try rewrite E; try assumption. nra.
Qed.

Lemma scaled_within s r : lit_check s = true -> p10 17 <= Rabs (p10 1120 * r - IZR (lit_int s) * p10 20) <= p10 20 -> within s r.
Proof.
  intros L H. destruct (lit_facts s L) as (_ & _ & _ & V & _). unfold within. rewrite V. clear V L. revert H. generalize (lit_int s). intros n H.
  pose proof (p10_pos 1120) as P.
  assert (E : IZR n * p10 20 = p10 1120 * (IZR n * p10 (-1100))) by (rewrite (Rmult_comm (p10 1120)), Rmult_assoc, <- p10_add; reflexivity).
  assert (E17 : p10 17 = p10 1120 * p10 (-1103)) by (rewrite <- p10_add; reflexivity). assert (E20 : p10 20 = p10 1120 * p10 (-1100)) by (rewrite <- p10_add; reflexivity).
  rewrite E in H. set (x := IZR n * p10 (-1100)) in *. rewrite E17, E20 in H.
  rewrite <- Rmult_minus_distr_l, Rabs_mult, (Rabs_pos_eq (p10 1120)), (Rabs_minus_sym r x) in H by lra.
  split; apply Rmult_le_reg_l with (p10 1120); lra.
Qed.

Lemma scale_pos : (0 < scale)%Z.
Proof. unfold scale. apply Z.pow_pos_nonneg; lia. Qed.

Lemma sqrt2_within : within sqrt2_text (sqrt 2).
Proof.
  apply scaled_within; [apply lit_check_of; left; reflexivity|]. pose proof (root_bounds _ _ _ _ sqrt2_checked scale_pos ltac:(lia)) as H.
  rewrite !plus_IZR, !mult_IZR, scale_R in H. revert H. generalize (lit_int sqrt2_text). intros n H.
  rewrite <- (p10_nonneg 20), <- (p10_nonneg 17) in H by lia. pose proof (p10_pos 17). rewrite Rabs_pos_eq; lra.
Qed.

Lemma phi_within : within phi_text ((1 + sqrt 5) / 2).
Proof.
  apply scaled_within; [apply lit_check_of; right; right; right; right; right; left; reflexivity|]. pose proof (root_bounds _ _ _ _ phi_checked scale_pos ltac:(lia)) as H.
  rewrite !minus_IZR, !mult_IZR, !minus_IZR, !mult_IZR, scale_R in H. revert H. generalize (lit_int phi_text). intros n H.
  rewrite <- (p10_nonneg 20), <- (p10_nonneg 17) in H by lia. pose proof (p10_pos 17). rewrite Rabs_minus_sym, Rabs_pos_eq; lra.
Qed.

(** Rough bounds *)

Lemma sqrt2_bound : 1 <= sqrt 2 <= 2.
Proof. rewrite <- sqrt_1 at 1. split; [apply sqrt_le_1_alt; lra|]. replace 2 with (sqrt (2 * 2)) at 2 by (apply sqrt_square; lra). apply sqrt_le_1_alt; lra. Qed.
Lemma sqrt5_bound : 2 <= sqrt 5 <= 3.
Proof.
  split.
  - replace 2 with (sqrt (2 * 2)) by (apply sqrt_square; lra). apply sqrt_le_1_alt; lra.
  - replace 3 with (sqrt (3 * 3)) by (apply sqrt_square; lra). apply sqrt_le_1_alt; lra.
Qed.
Lemma e_bound : 2 <= exp 1 <= 3.
Proof. split; [|exact exp_le_3]. pose proof (exp_ineq1 1). lra. Qed.
Lemma ln10_bound : 2 <= ln 10 <= 3.
Proof.
  pose proof ln2_bounds. assert (A : ln 8 <= ln 10 <= ln 16) by (split; apply Rlt_le, ln_increasing; lra).
  replace 8 with (2 * 2 * 2) in A by ring. replace 16 with (2 * 2 * 2 * 2) in A by ring. rewrite !ln_mult in A by lra. lra.
Qed.

(** ** Reading them *)

Lemma read_within s r d : lit_check s = true -> within s r -> valid_digits d -> (d <= 1084)%Z -> 2 / 10 <= r <= 9 ->
  exists c, of_string d s = Ok c /\ finite d c /\ full d c /\ Rabs (value c - r) <= p10 (- (d + 15)).
Proof.
  intros L [_ W] Hd D Hr. destruct (lit_facts s L) as (E & V & X & _ & Ln).
  destruct (literal_cor d (lit_of s) Hd V ltac:(rewrite E; exact Ln) ltac:(rewrite X; lia)) as (c & R1 & R2 & R3). rewrite E in R1. exists c. split; [exact R1|].
  destruct R2 as (_ & _ & _ & _ & _ & IN). set (v := literal_value (lit_of s)) in *. clearbody v.
  assert (S1 : p10 (-1100) <= / 1000). { replace (/ 1000) with (p10 (-3)) by (rewrite p10_m3; lra). apply p10_le. lia. }
  apply Rabs_le_inv in W.
  assert (V1 : p10 (-1) <= Rabs v < p10 1). { change (-1)%Z with (- (1))%Z. rewrite (p10_inv 1), p10_1, Rabs_pos_eq by lra. lra. }
  destruct IN as (Fr & (C1 & C2 & _) & KO).
  { split; [apply Rle_trans with (2 := proj1 V1); apply p10_le; lia|]. apply Rlt_le_trans with (1 := proj2 V1). apply p10_le. lia. }
  split; [exact Fr|]. split; [exact R3|].
  pose proof (KO (-1)%Z (proj1 V1)) as KR. assert (Rn : limb (data c) 0 <> 0%Z).
  { intro Z. rewrite (finite_zero_value d c Fr Z), Rabs_R0 in KR. pose proof (p10_pos (-1)). lra. }
  destruct (finite_abs_bounds d c Hd Fr Rn) as [E1 E2]. assert (EX : (Model.exp c < 1)%Z) by (apply p10_lt_inv; lra).
  assert (Vp : 0 <= v) by lra. rewrite (Rabs_pos_eq v Vp) in *.
  assert (Cp : 0 <= value c). { apply Rnot_lt_le. intro N. assert (0 < v) by lra. nra. } rewrite (Rabs_pos_eq _ Cp) in *.
  assert (U : ulp d (Model.exp c) <= p10 (- (d + 16))). { unfold ulp. apply p10_le. pose proof (elem_number_digits d Hd). lia. }
  assert (B : p10 (-1100) <= p10 (- (d + 16))) by (apply p10_le; lia).
  assert (T : p10 (- (d + 15)) = 10 * p10 (- (d + 16))). { replace (- (d + 15))%Z with (1 + - (d + 16))%Z by lia. rewrite p10_add, p10_1. reflexivity. }
  apply Rabs_le. lra.
Qed.

Lemma read_literal s r d : lit_check s = true -> within s r -> valid_digits d -> (1104 <= d)%Z -> 2 / 10 <= r <= 9 ->
  exists c, of_string d s = Ok c /\ finite d c /\ full d c /\ p10 (-1103) <= Rabs (value c - r) <= p10 (-1100).
Proof.
  intros L W Hd D Hr. destruct (lit_facts s L) as (E & V & X & EV & Ln). pose proof W as [_ W2]. unfold within in W.
  assert (S1 : p10 (-1100) <= / 1000). { replace (/ 1000) with (p10 (-3)) by (rewrite p10_m3; lra). apply p10_le. lia. }
  apply Rabs_le_inv in W2.
  assert (G : forall m, (-1 <= m <= 0)%Z -> p10 m <= Rabs (literal_value (lit_of s)) < p10 (m + 1) -> exists c, of_string d s = Ok c /\ finite d c /\ full d c /\ p10 (-1103) <= Rabs (value c - r) <= p10 (-1100)).
  { intros m Hm Vm. destruct (read_exact d (lit_of s) (lit_int s) (-1100) m Hd V ltac:(rewrite E; exact Ln) ltac:(rewrite X; lia) EV Vm ltac:(lia)) as (c & R1 & R2 & R3 & R4).
    - pose proof (elem_number_digits d Hd). lia.
    - rewrite E in R1. exists c. rewrite R3. auto. }
  destruct (Rlt_le_dec (literal_value (lit_of s)) 1) as [A|A].
  - apply (G (-1)%Z); [lia|]. change (-1 + 1)%Z with 0%Z. change (-1)%Z with (- (1))%Z. rewrite (p10_inv 1), p10_1, p10_0, Rabs_pos_eq by lra. lra.
  - apply (G 0%Z); [lia|]. change (0 + 1)%Z with 1%Z. rewrite p10_1, p10_0, Rabs_pos_eq by lra. lra.
Qed.
