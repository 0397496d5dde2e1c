(** * Reading arbitrary strings, and reading back printed text (proofs only). *)

From Coq Require Import ZArith List Bool Ascii String Reals Lra Lia.
From Verif Require Import Model Spec Limbs Value CmpProofs AddProofs OrderProofs SpecText ModelStr StrProofs StrOut StrFmt.
From Verif Require OrderDec Decide.
Import ListNotations.
Local Notation length := List.length.
Open Scope Z_scope.
Ltac Zify.zify_post_hook ::= Z.div_mod_to_equations.
Local Notation p10 := (powerRZ 10).

(** ** No exception *)
Definition ok_or_ub {A} (P : A -> Prop) (x : io A) : Prop :=
  match x with Ok a => P a | Throws => False | UB => True end.

Lemma bind_ok {A B} (P : A -> Prop) (Q : B -> Prop) x (f : A -> io B) :
  ok_or_ub P x -> (forall a, P a -> ok_or_ub Q (f a)) -> ok_or_ub Q (bind x f).
Proof. intros H K. destruct x; cbn in *; auto. Qed.

Lemma outcome_ok {A} (x : outcome A) : ok_or_ub (fun _ => True) (of_outcome x).
Proof. destruct x; cbn; auto. Qed.
Lemma checked_ok e : ok_or_ub (fun _ => True) (checked64 e).
Proof. unfold checked64. destruct (_ && _); cbn; auto. Qed.

Lemma erase1_len p s : (length (erase1 p s) <= length s)%nat.
Proof. unfold erase1. rewrite app_length, firstn_length, skipn_length. lia. Qed.
Lemma erase1_len' p s : (length s <= length (erase1 p s) + 1)%nat.
Proof. unfold erase1. rewrite app_length, firstn_length, skipn_length. lia. Qed.
Lemma insert_len p t s : length (insert_at p t s) = (length s + length t)%nat.
Proof. unfold insert_at. rewrite !app_length, firstn_length, skipn_length. lia. Qed.
Lemma drop_zeros_len s : (length (drop_zeros s) <= length s)%nat.
Proof. induction s as [|c t IH]; cbn; [lia|]. destruct (Ascii.eqb c "0"); cbn; lia. Qed.

Lemma find_some c s p : find c s = Some p -> (p < length s)%nat /\ nth p s c = c.
Proof.
  revert p. induction s as [|x t IH]; intros p H; [discriminate|]. cbn in H. destruct (Ascii.eqb_spec x c) as [->|N].
  - injection H as <-. cbn. split; [lia|reflexivity].
  - destruct (find c t) as [i|] eqn:E; [|discriminate]. injection H as <-. destruct (IH i eq_refl). cbn. split; [lia|auto].
Qed.
Lemma find_in c s : In c s <-> exists p, find c s = Some p.
Proof.
  split.
  - induction s as [|x t IH]; [intros []|]. intros [->|H]; cbn.
    + rewrite Ascii.eqb_refl. eauto.
    + destruct (Ascii.eqb x c); [eauto|]. destruct (IH H) as (p & ->). eauto.
  - intros (p & H). destruct (find_some c s p H) as [A B]. rewrite <- B. apply nth_In; auto.
Qed.

Lemma drop_zeros_nil s : drop_zeros s = [] <-> Forall (fun c => c = "0"%char) s.
Proof.
  induction s as [|c t IH]; cbn [drop_zeros]; [intuition|]. destruct (Ascii.eqb_spec c "0") as [->|N].
  - rewrite IH. split; intro H; [constructor; auto|inversion H; auto].
  - split; [discriminate|]. intro H; inversion H; congruence.
Qed.
Lemma drop_zeros_keep c s : c <> "0"%char -> In c s -> In c (drop_zeros s).
Proof.
  intro N. induction s as [|x t IH]; [intros []|]. intro H. cbn [drop_zeros]. destruct (Ascii.eqb_spec x "0") as [->|M]; [|exact H].
  destruct H as [E|H]; [congruence|auto].
Qed.
Lemma drop_zeros_incl s c : In c (drop_zeros s) -> In c s.
Proof. induction s as [|x t IH]; [intros []|]. cbn. destruct (Ascii.eqb x "0"); [auto|]. auto. Qed.
Lemma drop_trailing_last s : drop_trailing_zeros s <> [] -> exists a z, drop_trailing_zeros s = a ++ [z] /\ z <> "0"%char.
Proof.
  unfold drop_trailing_zeros. intro H. destruct (drop_zeros (rev s)) as [|z a] eqn:E; [cbn in H; congruence|].
  exists (rev a), z. split; [reflexivity|]. clear H. revert z a E. induction (rev s) as [|y t IH]; intros z a E; [discriminate|]. cbn [drop_zeros] in E.
  destruct (Ascii.eqb_spec y "0"); [eapply IH; eauto|]. injection E as <- <-. auto.
Qed.

Definition has_pt (n : Z) (s : list ascii) := In "."%char s /\ Z.of_nat (length s) <= n.

Lemma rd_point_ok s e n : Z.of_nat (length s) <= n ->
  ok_or_ub (fun r => match r with RZero => True | RNum t _ => has_pt (n + 1) t end) (rd_point s e).
Proof.
  intro Hn. unfold rd_point. destruct (find "." s) as [p|] eqn:E.
  2: { cbn. split; [apply in_or_app; cbn; auto|]. rewrite app_length; cbn; lia. }
  assert (I : In "."%char s) by (apply find_in; eauto).
  assert (J : In "."%char (drop_trailing_zeros s)).
  { unfold drop_trailing_zeros. rewrite <- in_rev. apply drop_zeros_keep; [discriminate|]. rewrite <- in_rev. auto. }
  assert (LL : (length (drop_trailing_zeros s) <= length s)%nat) by (unfold drop_trailing_zeros; rewrite rev_length, <- (rev_length s); apply drop_zeros_len).
  pose proof (drop_trailing_last s) as LA. destruct (drop_trailing_zeros s) as [|c r]; [destruct J|].
  destruct (Ascii.eqb_spec c ".") as [->|N].
  - destruct r as [|c2 r2]; [cbn; auto|]. destruct LA as (a & z & A & Z0); [discriminate|].
    assert (Iz : In z (c2 :: r2)).
    { destruct a as [|a0 a1]; [cbn in A; discriminate|]. cbn [app] in A. injection A as _ A. rewrite A. apply in_or_app. cbn. auto. }
    pose proof (drop_zeros_keep z (c2 :: r2) Z0 Iz) as K. pose proof (drop_zeros_len (c2 :: r2)) as DL. destruct (drop_zeros (c2 :: r2)) as [|h t']; [destruct K|].
    apply (bind_ok (fun _ => True)); [apply checked_ok|]. intros e' _. cbn. split; [cbn; auto|]. cbn [length] in *. lia.
  - cbn. split; [auto|]. cbn [length] in *. lia.
Qed.

Lemma in_insert p c s : In c (insert_at p [c] s).
Proof. unfold insert_at. apply in_or_app. right. cbn. auto. Qed.

Lemma in_erase_insert pos q c s : (pos < q)%nat -> (q <= length s)%nat -> In c (erase1 pos (insert_at q [c] s)).
Proof.
  intros H1 H2. unfold insert_at, erase1. set (a := firstn q s). assert (La : length a = q) by (unfold a; rewrite firstn_length; lia).
  apply in_or_app. right. rewrite skipn_app. apply in_or_app. right. replace (S pos - length a)%nat with 0%nat by lia. cbn. auto.
Qed.

Lemma rd_shift_ok s e n : has_pt n s -> ok_or_ub (fun r => has_pt (n + 9) (fst r)) (rd_shift s e).
Proof.
  intros [I L]. unfold rd_shift. apply find_in in I. destruct I as (pos & E). rewrite E. destruct (find_some "." s pos E) as [P _]. set (r := Z.rem e 8).
  set (ns := if r =? 0 then 0 else if e <? 0 then r + 8 else r).
  assert (Hns : 0 <= ns <= 8).
  { unfold ns, r. clear. destruct (Z.eqb_spec (Z.rem e 8) 0); [lia|]. destruct (Z.ltb_spec e 0); Z.to_euclidean_division_equations; lia. }
  clearbody ns. set (s' := s ++ zeros _). assert (Ls : Z.of_nat (length s') <= n + 8) by (unfold s', zeros; rewrite app_length, repeat_length; lia).
  assert (Lp : (pos + 1 + Z.to_nat ns <= length s')%nat) by (unfold s', zeros; rewrite app_length, repeat_length; lia).
  destruct (Z.eqb_spec ns 0).
  - cbn. split; [unfold s'; apply in_or_app; left; apply find_in; eauto|lia].
  - apply (bind_ok (fun _ => True)); [apply checked_ok|]. intros e' _. cbn [ok_or_ub fst]. split; [apply in_erase_insert; lia|].
    pose proof (erase1_len pos (insert_at (pos + 1 + Z.to_nat ns) ["."%char] s')) as EL. rewrite insert_len in EL. cbn [length] in EL. lia.
Qed.

Lemma rd_cut_ok s e n : n <= 2147483647 -> has_pt n s -> ok_or_ub (fun r => has_pt n (fst r)) (rd_cut s e).
Proof.
  intros Hn [I L]. unfold rd_cut. pose proof I as I0. apply find_in in I. destruct I as (pos & E). rewrite E. destruct (find_some "." s pos E) as [P _].
  destruct (Nat.ltb_spec 8 pos) as [B|B]; [|cbn; split; [auto|lia]].
  assert (E32 : s32 (Z.of_nat pos) = Z.of_nat pos) by (unfold s32, u32; rewrite Z.mod_small by lia; destruct (Z.ltb_spec (Z.of_nat pos) 2147483648); lia).
  rewrite E32. set (np := Z.of_nat pos) in *. set (ip := np - _).
  assert (Hip : 1 <= ip <= 8).
  { unfold ip. assert (8 < np) by lia. clear - H. destruct (Z.eqb_spec (Z.rem np 8) 0); Z.to_euclidean_division_equations; lia. }
  destruct (Z.ltb_spec ip 0); [lia|]. rewrite Z.gtb_ltb. destruct (Z.ltb_spec (Z.of_nat (length s)) ip); [lia|]. cbn [orb].
  apply (bind_ok (fun _ => True)); [apply checked_ok|]. intros e' _. cbn [ok_or_ub fst]. split.
  - unfold erase1. apply in_or_app. left. unfold insert_at. set (a := firstn (Z.to_nat ip) s). assert (La : length a = Z.to_nat ip) by (unfold a; rewrite firstn_length; lia).
    rewrite firstn_app. apply in_or_app. right. replace (pos + 1 - length a)%nat with (S (pos - length a)) by lia. cbn. auto.
  - unfold erase1. rewrite app_length, firstn_length, skipn_length, insert_len. cbn [length]. lia.
Qed.

Lemma read_groups_ok l : ok_or_ub (fun _ => True) (read_groups l).
Proof.
  induction l as [|g t IH]; cbn [read_groups]; [cbn; auto|]. apply (bind_ok (fun _ => True)); [apply outcome_ok|]. intros v _.
  apply (bind_ok (fun _ => True)); [exact IH|]. cbn. auto.
Qed.

Lemma rd_limbs_ok d s : In "."%char s -> ok_or_ub (fun _ => True) (rd_limbs d s).
Proof.
  intro I. unfold rd_limbs. apply find_in in I. destruct I as (pos & E). rewrite E.
  apply (bind_ok (fun _ => True)); [apply outcome_ok|]. intros a _. apply (bind_ok (fun _ => True)); [apply read_groups_ok|]. cbn. auto.
Qed.

Lemma rd_pad_in s : In "."%char s -> In "."%char (rd_pad s).
Proof. intro I. unfold rd_pad. destruct (find "." s); [apply in_or_app|]; auto. Qed.

Lemma rd_sign_len s : (length (fst (rd_sign s)) <= length s)%nat.
Proof.
  unfold rd_sign. assert (A : forall t : list ascii, (length (match find "+" t with Some p => erase1 p t | None => t end) <= length t)%nat).
  { intro t. destruct (find "+" t); [apply erase1_len|lia]. }
  destruct (find "-" s) as [p|]; cbn [fst]; [|apply A]. pose proof (A (erase1 p s)). pose proof (erase1_len p s). lia.
Qed.

Lemma rd_string_nothrow d x s : Z.of_nat (length s) <= 2147483600 -> rd_string d x s <> Throws.
Proof.
  intro Hs. assert (H : ok_or_ub (fun _ => True) (rd_string d x s)).
  { unfold rd_string. apply (bind_ok (fun r => (length (fst r) <= length s)%nat)).
    - unfold rd_exponent. assert (G : forall p, ok_or_ub (fun r => (length (fst r) <= length s)%nat)
        (bind (of_outcome (numeric_cast_sll (skipn (S p) s))) (fun e => Ok (firstn p s, e)))).
      { intro p. apply (bind_ok (fun _ => True)); [apply outcome_ok|]. intros e _. cbn. rewrite firstn_length. lia. }
      destruct (find "e" s); [apply G|]. destruct (find "E" s); [apply G|]. cbn. lia.
    - intros [s1 e] L1. cbn [fst] in L1. pose proof (rd_sign_len s1) as L2. destruct (rd_sign s1) as [s2 b]. cbn [fst] in L2.
      assert (K : forall s3 e3, (length s3 <= length s2)%nat -> ok_or_ub (fun _ => True)
        (bind (rd_point s3 e3) (fun r => match r with RZero => Ok (zero d) | RNum s e => bind (rd_shift s e) (fun '(s, e) => bind (rd_cut s e) (fun '(s, e) =>
           bind (rd_limbs d (rd_pad s)) (fun l => Ok (rd_range d (mkef l e b (cls x) (prec x)))))) end))).
      { intros s3 e3 L3. eapply bind_ok; [apply (rd_point_ok s3 e3 2147483600); lia|]. intros [|s4 e4] P4; [cbn; auto|].
        eapply bind_ok; [apply rd_shift_ok; exact P4|]. intros [s5 e5] P5. cbn [fst] in P5.
        eapply bind_ok; [eapply (fun H => rd_cut_ok s5 e5 _ H P5); lia|]. intros [s6 e6] [P6 _]. cbn [fst] in P6.
        eapply bind_ok; [apply rd_limbs_ok, rd_pad_in; exact P6|]. cbn. auto. }
      unfold rd_leading. pose proof (drop_zeros_len s2) as L3. destruct (Nat.ltb_spec (length (drop_zeros s2)) (length s2)).
      + destruct (drop_zeros s2) as [|c t] eqn:E; [cbn; auto|]. apply K. lia.
      + apply K. lia. }
  intro E. rewrite E in H. exact H.
Qed.

Lemma rd_string_state d x y s : cls x = cls y -> prec x = prec y -> rd_string d x s = rd_string d y s.
Proof. intros H K. unfold rd_string. rewrite H, K. reflexivity. Qed.

(** ** Reading back *)
Open Scope R_scope.
Lemma multiple_cut u v r j : 0 < u -> Rabs v = IZR j * u -> cut_to u v r -> r = v.
Proof.
  intros Hu Hv ([A B] & C & (i & D)).
  assert (E : Rabs r = Rabs v).
  { assert (AR : Rabs r = IZR (Z.abs i) * u) by (rewrite D, Rabs_mult, (Rabs_right u), abs_IZR by lra; reflexivity).
    rewrite AR, Hv in *. assert (IZR (Z.abs i) <= IZR j) by (apply (Rmult_le_reg_r u); lra).
    assert (IZR j < IZR (Z.abs i) + 1) by (apply (Rmult_lt_reg_r u); lra). rewrite <- plus_IZR in H0. apply le_IZR in H. apply lt_IZR in H0.
    replace j with (Z.abs i) by lia. reflexivity. }
  unfold Rabs in E. destruct (Rcase_abs r), (Rcase_abs v); try lra.
  - destruct (Req_dec v 0); [lra|]. assert (0 < v) by lra. assert (0 < (- r) * v) by (apply Rmult_lt_0_compat; lra). lra.
  - destruct (Req_dec r 0); [lra|]. assert (0 < r) by lra. assert (0 < r * (- v)) by (apply Rmult_lt_0_compat; lra). lra.
Qed.

Lemma read_back d x y l n : valid_digits d -> finite d x -> cls y = Finite -> (2 <= prec y <= elem_number d)%Z -> valid_literal l ->
  (Z.of_nat (length (text l)) < 2147483600)%Z -> (Z.abs (l_exponent l) <= 9000000000000000000)%Z ->
  (1 <= n <= d + 2)%Z -> rounded_to (p10 (order x + 1 - n)) (value x) (literal_value l) ->
  (value x = 0 \/ p10 (-2147483616) <= Rabs (value x) < p10 2147483623) ->
  exists r, rd_string d y (text l) = Ok r /\ finite d r /\ value r = literal_value l /\ (prec y = elem_number d -> full d r).
Proof.
  intros Hd F C Hp V HL HE Hn RT RG. destruct (rd_literal d y l Hd C Hp V HL HE) as (r & R1 & R2 & R3). exists r. split; [exact R1|].
  destruct R2 as (W & Z0 & _ & _ & _ & IN). set (v := literal_value l) in *. clearbody v.
  destruct RT as (j & A & [B1 B2] & SG). set (q := p10 (order x + 1 - n)) in *. assert (Q : 0 < q) by apply p10_pos.
  destruct RG as [X0|RG].
  - assert (v = 0).
    { rewrite X0, Rabs_R0 in *. assert (IZR j < 1) by (apply (Rmult_lt_reg_r q); lra). assert (-1 < IZR j) by (apply (Rmult_lt_reg_r q); lra).
      apply lt_IZR in H. apply (lt_IZR (-1)) in H0. assert (j = 0%Z) by lia. subst j. rewrite Rmult_0_l in A. destruct (Req_dec v 0) as [|N]; auto. apply Rabs_no_R0 in N. congruence. }
    destruct (Z0 H) as [F1 F2]. split; [auto|]. split; [congruence|auto].
  - assert (X : value x <> 0) by (intro E; rewrite E, Rabs_R0 in RG; pose proof (p10_pos (-2147483616)); lra).
    destruct (OrderDec.order_spec d x Hd F X) as [O1 O2]. set (k := order x) in *. clearbody k.
    assert (Kb : (k < 2147483623)%Z) by (apply p10_lt_inv; lra). assert (Ka : (-2147483616 < k + 1)%Z) by (apply p10_lt_inv; lra).
    assert (L1 : p10 (-2147483616) <= p10 k) by (apply p10_le; clear - Ka; lia). assert (L2 : p10 (k + 1) < p10 2147483624) by (apply p10_lt; clear - Kb; lia).
    set (pa := p10 (-2147483616)) in *. set (pb := p10 2147483623) in *. set (pc := p10 2147483624) in *. clearbody pa pb pc.
    assert (M : p10 k = IZR (10 ^ (n - 1)) * q) by (rewrite <- (p10_nonneg (n - 1)) by lia; unfold q; rewrite <- p10_add; f_equal; lia).
    assert (M' : p10 (k + 1) = IZR (10 ^ n) * q) by (rewrite <- (p10_nonneg n) by lia; unfold q; rewrite <- p10_add; f_equal; lia).
    assert (J1 : (10 ^ (n - 1) <= j)%Z).
    { assert (IZR (10 ^ (n - 1)) < IZR (j + 1)) by (apply (Rmult_lt_reg_r q); [lra|]; rewrite plus_IZR; lra). apply lt_IZR in H. lia. }
    assert (J2 : (j <= 10 ^ n)%Z).
    { assert (IZR j < IZR (10 ^ n + 1)) by (apply (Rmult_lt_reg_r q); [lra|]; rewrite plus_IZR; lra). apply lt_IZR in H. lia. }
    apply IZR_le in J1, J2. apply (Rmult_le_compat_r q) in J1; [|lra]. apply (Rmult_le_compat_r q) in J2; [|lra]. rewrite <- M, <- A in J1. rewrite <- M', <- A in J2.
    destruct IN as (Fr & CT & KO); [lra|]. split; [auto|]. split; [|auto].
    pose proof (KO k J1) as KR. assert (Rn : limb (data r) 0 <> 0%Z).
    { intro E. rewrite (finite_zero_value d r Fr E), Rabs_R0 in KR. pose proof (p10_pos k). lra. }
    destruct (finite_abs_bounds d r Hd Fr Rn) as [E1 E2]. destruct CT as ([C1 C2] & C3 & C4).
    assert (EX : (exp r <= k + 1)%Z) by (destruct (Z.le_gt_cases (exp r) (k + 1)) as [|G]; auto; pose proof (p10_lt _ _ ltac:(exact (Z.gt_lt _ _ ltac:(lia)) || exact G)); lra).
    pose proof (elem_number_digits d Hd) as ND.
    apply (multiple_cut (ulp d (exp r)) v (value r) (j * 10 ^ (k + 1 - n - (exp r - 8 * (elem_number d - 1))))).
    + apply ulp_pos.
    + rewrite A, mult_IZR, <- (p10_nonneg (k + 1 - n - (exp r - 8 * (elem_number d - 1)))) by lia. unfold q, ulp. rewrite Rmult_assoc, <- p10_add. do 2 f_equal. lia.
    + split; [auto|]. split; auto.
Qed.

Lemma justified_none c w b t : (w <= Z.of_nat (length t))%Z -> justified c w b t = t.
Proof. intro H. unfold justified. replace (Z.to_nat w - length t)%nat with 0%nat by lia. cbn. destruct b; [apply app_nil_r|reflexivity]. Qed.

Lemma round_trip d x y os : valid_digits d -> finite d x -> (Z.abs (exp x) < 2 ^ 63)%Z ->
  (value x = 0 \/ p10 (-2147483616) <= Rabs (value x) < p10 2147483623) ->
  cls y = Finite -> (2 <= prec y <= elem_number d)%Z ->
  f_scientific os = true -> (s_width os <= 0)%Z -> (s_precision os <= 2147483000)%Z ->
  let p := (if (s_precision os <=? 0)%Z then 6 else s_precision os)%Z in
  exists t r, wr_string d x os = Ok t /\ rd_string d y t = Ok r /\ finite d r /\
    rounded_to (p10 (order x + 1 - Z.min (d + 2) (p + 1))) (value x) (value r).
Proof.
  intros Hd F HE RG C Hp HS Hw HP p. destruct (wr_sci_spec d x os Hd F HE HS) as (l & A1 & A2 & _ & _ & _ & _ & A3 & A4 & A5). fold p in A3, A5.
  assert (Hp1 : (1 <= p <= 2147483000)%Z) by (unfold p; destruct (Z.leb_spec (s_precision os) 0); lia). clearbody p.
  exists (text l). rewrite justified_none in A1 by lia.
  assert (OB : (Z.abs (order x) <= 2147483624)%Z).
  { destruct (order_decimal d x Hd F) as [[_ ->]|O]; [lia|]. destruct RG as [E|RG]; [rewrite E, Rabs_R0 in O; pose proof (p10_pos (order x)); lra|].
    assert (order x < 2147483623)%Z by (apply p10_lt_inv; lra). assert (-2147483616 < order x + 1)%Z by (apply p10_lt_inv; lra). clear - H H0. lia. }
  destruct (read_back d x y l (Z.min (d + 2) (p + 1)) Hd F C Hp A2) as (r & R1 & R2 & R3 & _); [clear - A5 Hp1; lia|clear - OB A4; lia|destruct Hd; clear - H Hp1; lia|exact A3|exact RG|].
  exists r. rewrite R3. auto.
Qed.

(* numbers with that many digits come back unchanged *)
Lemma rounded_exact q s r : 0 < q -> (exists j, s = IZR j * q) -> rounded_to q s r -> r = s.
Proof.
  intros Q (j & E) (k & A & [B1 B2] & S). assert (AS : Rabs s = IZR (Z.abs j) * q) by (rewrite E, Rabs_mult, (Rabs_right q), abs_IZR by lra; reflexivity).
  rewrite AS in *. assert (IZR k < IZR (Z.abs j + 1)) by (apply (Rmult_lt_reg_r q); [lra|]; rewrite plus_IZR; lra).
  assert (IZR (Z.abs j) < IZR (k + 1)) by (apply (Rmult_lt_reg_r q); [lra|]; rewrite plus_IZR; lra). apply lt_IZR in H, H0. assert (k = Z.abs j) by lia. subst k.
  rewrite <- AS in A. unfold Rabs in A. destruct (Rcase_abs r), (Rcase_abs s); try lra.
  - destruct (Req_dec s 0); [lra|]. assert (0 < (- r) * s) by (apply Rmult_lt_0_compat; lra). lra.
  - destruct (Req_dec r 0); [lra|]. assert (0 < r * (- s)) by (apply Rmult_lt_0_compat; lra). lra.
Qed.

(** ** The statements of P_Text.v *)
Lemma sci_cor d x os k : valid_digits d -> finite d x -> (Z.abs (exp x) < 2 ^ 63)%Z -> f_scientific os = true -> decimal_order (value x) k ->
  let p := (if (s_precision os <=? 0)%Z then 6 else s_precision os)%Z in
  exists l, wr_string d x os = Ok (justified (s_fill os) (s_width os) (f_left os) (text l)) /\
    valid_literal l /\ l_sign l = shown_sign (neg x) (f_showpos os) /\ scientific (f_uppercase os) (value x) l /\
    l_point l = true /\ Z.of_nat (length (l_frac l)) = p /\
    rounded_to (p10 (k + 1 - (Z.min (d + 1) p + 1))) (value x) (literal_value l).
Proof.
  intros Hd F HE HS O p. destruct (wr_sci_spec d x os Hd F HE HS) as (l & A1 & A2 & A3 & A4 & A5 & A6 & A7 & _).
  exists l. repeat (split; [assumption|]). rewrite (order_unique _ _ _ O (order_decimal d x Hd F)).
  replace (Z.min (d + 1) p + 1)%Z with (Z.min (d + 2) (p + 1))%Z by (clear; lia). exact A7.
Qed.

Lemma fixed_cor d x os k : valid_digits d -> finite d x -> f_scientific os = false -> f_fixed os = true -> decimal_order (value x) k ->
  let p := (if (s_precision os <=? 0)%Z then 6 else s_precision os)%Z in
  (forall j, (j <= - p)%Z -> ~ p10 j / 2 <= Rabs (value x) < p10 j) ->
  exists l, wr_string d x os = Ok (justified (s_fill os) (s_width os) (f_left os) (text l)) /\
    valid_literal l /\ l_sign l = shown_sign (neg x) (f_showpos os) /\ positional l /\
    l_point l = true /\ Z.of_nat (length (l_frac l)) = p /\
    rounded_to (p10 (Z.max (- p) (k - (d + 1)))) (value x) (literal_value l).
Proof.
  intros Hd F HS HF O p NB. destruct (wr_fixed_spec d x os Hd F HS HF NB) as (l & A1 & A2 & A3 & A4 & A5 & A6 & A7).
  exists l. repeat (split; [assumption|]). rewrite (order_unique _ _ _ O (order_decimal d x Hd F)).
  replace (order x - (d + 1))%Z with (order x - d - 1)%Z by (clear; lia). exact A7.
Qed.

Lemma default_cor d x os k : valid_digits d -> finite d x -> (Z.abs (exp x) < 2 ^ 63)%Z -> f_scientific os = false -> f_fixed os = false ->
  (s_precision os < 2 ^ 63)%Z -> decimal_order (value x) k ->
  let p := (if (s_precision os <=? 0)%Z then 6 else s_precision os)%Z in
  let sci := ((k <? -4) || (Z.min d (Z.max p 6) <=? k))%Z in
  (sci = false -> forall j, (j <= - p)%Z -> ~ p10 j / 2 <= Rabs (value x) < p10 j) ->
  (f_showpoint os = true -> sci = false -> (k < 0 \/ k + 2 <= p)%Z) ->
  exists l, wr_string d x os = Ok (justified (s_fill os) (s_width os) (f_left os) (text l)) /\
    valid_literal l /\ l_sign l = shown_sign (neg x) (f_showpos os) /\
    (if sci then scientific (f_uppercase os) (value x) l else positional l) /\
    (if f_showpoint os then l_point l = true /\ (hd 0%Z (l_int l) <> 0%Z -> Z.of_nat (length (l_int l ++ l_frac l)) = p)
     else (l_point l = true <-> l_frac l <> []) /\ trimmed (l_frac l)) /\
    rounded_to (p10 (k + 1 - Z.min (d + 1) (if (sci || (0 <=? k)%Z) then p else Z.max (k + 1 + p) 0))) (value x) (literal_value l).
Proof.
  intros Hd F HE HS HF Hp O p sci. pose proof (order_unique _ _ _ O (order_decimal d x Hd F)) as OE. intros NB SPC. subst k.
  change (2 ^ 63)%Z with 9223372036854775808%Z in Hp.
  destruct (wr_default_spec d x os Hd F HE HS HF ltac:(clear - Hp; lia) NB SPC) as (l & A1 & A2 & A3 & A4 & A5 & A6 & _).
  exists l. split; [exact A1|]. split; [exact A2|]. split; [exact A3|]. split; [exact A4|]. split; [|exact A6].
  destruct (f_showpoint os); [exact A5|]. destruct A5 as [B1 B2]. split; [|exact B2]. rewrite B1. destruct (l_frac l); cbn; split; congruence.
Qed.

Lemma nonfinite_cor d x os : cls x <> Finite -> exists t, wr_string d x os = Ok t /\
  (is_nan x -> t = list_ascii_of_string (if f_uppercase os then "NAN" else "nan")%string) /\
  (forall b, is_inf x b -> t = sign_text (shown_sign b (f_showpos os)) ++ list_ascii_of_string (if f_uppercase os then "INF" else "inf")%string).
Proof.
  intro C. unfold wr_string. assert (FI : isfinite x = false) by (unfold isfinite; destruct (cls x); congruence). rewrite FI. cbn [negb]. eexists. split; [reflexivity|].
  unfold nonfinite_text, isinf, is_nan, is_inf. split.
  - intros ->. destruct (f_uppercase os); reflexivity.
  - intros b [-> <-]. unfold isneg, shown_sign. destruct (neg x), (f_showpos os), (f_uppercase os); reflexivity.
Qed.

(* every condition under which wr_string returns *)
Lemma never_throws d x os k : valid_digits d -> wf d x -> (Z.abs (exp x) < 2 ^ 63)%Z -> (s_precision os < 2 ^ 63)%Z -> decimal_order (value x) k ->
  let p := (if (s_precision os <=? 0)%Z then 6 else s_precision os)%Z in
  cls x <> Finite \/ f_scientific os = true \/
  (f_fixed os = false /\ (k < -4 \/ Z.min d (Z.max p 6) <= k)%Z) \/
  ((forall j, (j <= - p)%Z -> ~ p10 j / 2 <= Rabs (value x) < p10 j) /\ (f_fixed os = true \/ f_showpoint os = false \/ (k < 0 \/ k + 2 <= p)%Z)) ->
  exists t, wr_string d x os = Ok t.
Proof.
  intros Hd W HE HP O p [A|A].
  { destruct (nonfinite_cor d x os A) as (t & T & _). eauto. }
  destruct (cls x) eqn:C; [|destruct (nonfinite_cor d x os ltac:(congruence)) as (t & T & _); eauto|destruct (nonfinite_cor d x os ltac:(congruence)) as (t & T & _); eauto].
  assert (F : finite d x) by (split; auto). destruct (f_scientific os) eqn:S.
  { destruct (sci_cor d x os k Hd F HE S O) as (l & T & _). eauto. }
  destruct A as [A|A]; [discriminate|]. destruct (f_fixed os) eqn:X.
  - destruct A as [[A _]|[A _]]; [discriminate|]. destruct (fixed_cor d x os k Hd F S X O A) as (l & T & _). eauto.
  - destruct (default_cor d x os k Hd F HE S X HP O) as (l & T & _).
    + intros SC. destruct A as [[_ A]|[A _]]; [|exact A]. fold p in SC. exfalso. apply orb_false_iff in SC. destruct SC as [S1 S2]. apply Z.ltb_ge in S1. apply Z.leb_gt in S2. lia.
    + intros SP SC. fold p in SC |- *. apply orb_false_iff in SC. destruct SC as [S1 S2]. apply Z.ltb_ge in S1. apply Z.leb_gt in S2.
      destruct A as [[_ A]|[_ [A|[A|A]]]]; [lia|discriminate|congruence|exact A].
    + eauto.
Qed.

Lemma digits_cor d x n k : valid_digits d -> finite d x -> decimal_order (value x) k -> (1 <= n)%nat ->
  exists ds e, get_output_string d x k n = Ok (map digit_char ds, e) /\ Forall is_decimal ds /\
    (length ds <= n)%nat /\ (length ds = n \/ d < Z.of_nat (length ds))%Z /\ (value x <> 0 -> hd 0%Z ds <> 0%Z) /\
    rounded_to (p10 (k + 1 - Z.of_nat n)) (Rabs (value x)) (IZR (decimal_Z ds) * p10 (e + 1 - Z.of_nat (length ds))).
Proof.
  intros Hd F O Hn. rewrite (order_unique _ _ _ O (order_decimal d x Hd F)).
  destruct (gos_spec d x n Hd F) as [(A & _)|(ds & e & G & D1 & D2 & D3 & D4 & D5 & D6 & D7)]; [lia|].
  exists ds, e. split; [exact G|]. split; [exact D1|]. split; [auto|]. split; [pose proof (elem_number_digits d Hd); lia|].
  split; [intro V; apply D6; [auto|lia]|exact D5].
Qed.

Lemma literal_cor d l : valid_digits d -> valid_literal l ->
  (Z.of_nat (length (text l)) < 2147483600)%Z -> (Z.abs (l_exponent l) <= 9000000000000000000)%Z ->
  exists r, of_string d (text l) = Ok r /\ read_result d (literal_value l) r /\ full d r.
Proof.
  intros Hd V HL HE. pose proof (elem_number_bounds d Hd). destruct (rd_literal d (ef_default d) l Hd) as (r & A & B & C); auto.
  - cbn [ef_default prec]. unfold Model.N in *; lia.
  - exists r. auto.
Qed.

Lemma round_trip_cor d x y os k : valid_digits d -> finite d x -> (Z.abs (exp x) < 2 ^ 63)%Z ->
  (value x = 0 \/ p10 (-2147483616) <= Rabs (value x) < p10 2147483623) ->
  cls y = Finite -> (2 <= prec y <= elem_number d)%Z ->
  f_scientific os = true -> (s_width os <= 0)%Z -> (s_precision os <= 2147483000)%Z -> decimal_order (value x) k ->
  let p := (if (s_precision os <=? 0)%Z then 6 else s_precision os)%Z in
  let unit := p10 (k + 1 - (Z.min (d + 1) p + 1)) in
  exists t r, wr_string d x os = Ok t /\ rd_string d y t = Ok r /\ finite d r /\
    rounded_to unit (value x) (value r) /\ ((exists j, value x = IZR j * unit) -> value r = value x).
Proof.
  intros Hd F HE RG C Hp HS Hw HP O p unit. destruct (round_trip d x y os Hd F HE RG C Hp HS Hw HP) as (t & r & A1 & A2 & A3 & A4).
  exists t, r. split; [exact A1|]. split; [exact A2|]. split; [exact A3|].
  assert (RU : rounded_to unit (value x) (value r)).
  { unfold unit. rewrite (order_unique _ _ _ O (order_decimal d x Hd F)). replace (Z.min (d + 1) p + 1)%Z with (Z.min (d + 2) (p + 1))%Z by (clear; lia). exact A4. }
  split; [exact RU|]. intro J. apply (rounded_exact unit); auto. apply p10_pos.
Qed.

(** ** Examples of failure *)
Lemma exponent_overflow_ex : exists l, valid_literal l /\ text l = list_ascii_of_string "123456789e9223372036854775807" /\ of_string 30 (text l) = UB.
Proof.
  exists (mkliteral None [1; 2; 3; 4; 5; 6; 7; 8; 9]%Z false [] (Some (false, None, [9;2;2;3;3;7;2;0;3;6;8;5;4;7;7;5;8;0;7]%Z))).
  split; [|split; [reflexivity|vm_compute; reflexivity]]. unfold valid_literal, is_decimal. cbn [l_sign l_int l_point l_frac l_exp app].
  split; [repeat constructor; discriminate|]. split; [constructor|]. split; [discriminate|]. split; [reflexivity|].
  intros u s ds [= <- <- <-]. split; [repeat constructor; discriminate|discriminate].
Qed.

Lemma read_any_ex : of_string 30 [] = UB /\ of_string 30 (list_ascii_of_string "1e") = UB /\
  exists r, rd_string 30 (value_nan 30) (list_ascii_of_string "1") = Ok r /\ cls r = NaN.
Proof. split; [vm_compute; reflexivity|]. split; [vm_compute; reflexivity|]. eexists. split; vm_compute; reflexivity. Qed.

Lemma no_digit_ex : get_output_string 30 (of_sll 30 5) 0 0 = Throws.
Proof. vm_compute. reflexivity. Qed.

Lemma output_ex : (exists x, of_string 30 (list_ascii_of_string "0.009") = Ok x /\ finite 30 x /\
     wr_string 30 x (mkstream false true false false false false 2 0 " ") = Throws) /\
  wr_string 30 (of_sll 30 123) (mkstream false false false true false false 2 0 " ") = Throws.
Proof.
  split; [|vm_compute; reflexivity]. eexists. split; [vm_compute; reflexivity|]. split; [apply Decide.wfb_finite; vm_compute; reflexivity|vm_compute; reflexivity].
Qed.
