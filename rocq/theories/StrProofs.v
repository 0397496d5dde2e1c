(** * Reading decimal literals (proofs only). *)

From Coq Require Import ZArith List Bool Ascii Reals Lra Lia.
From Verif Require Import Model Spec Limbs Value CmpProofs AddProofs SpecText ModelStr.
Import ListNotations.
Open Scope Z_scope.
Ltac Zify.zify_post_hook ::= Z.div_mod_to_equations.

Notation dc := digit_char.
Notation DS := (map digit_char).
Notation dz := decimal_Z.
Notation decs := (Forall is_decimal).
Notation pt := ("."%char).

(** ** Digits *)
Lemma dec_cases d : is_decimal d -> d = 0 \/ d = 1 \/ d = 2 \/ d = 3 \/ d = 4 \/ d = 5 \/ d = 6 \/ d = 7 \/ d = 8 \/ d = 9.
Proof. unfold is_decimal. lia. Qed.

Ltac dcases H := apply dec_cases in H; destruct H as [H|[H|[H|[H|[H|[H|[H|[H|[H|H]]]]]]]]]; subst.

Lemma dc_dig d : is_decimal d -> dig (dc d) = d.
Proof. intro H. dcases H; reflexivity. Qed.
Lemma dc_is d : is_decimal d -> is_digit (dc d) = true.
Proof. intro H. dcases H; reflexivity. Qed.
Lemma dc_space d : is_decimal d -> is_space (dc d) = false.
Proof. intro H. dcases H; reflexivity. Qed.
Lemma dc_inj a b : is_decimal a -> is_decimal b -> Ascii.eqb (dc a) (dc b) = (a =? b).
Proof. intros H K. dcases H; dcases K; reflexivity. Qed.
Lemma dc_zero d : is_decimal d -> Ascii.eqb (dc d) "0" = (d =? 0).
Proof. intro H. change "0"%char with (dc 0). apply dc_inj; auto. unfold is_decimal; lia. Qed.
Lemma dc_not d c : is_decimal d -> is_digit c = false -> Ascii.eqb (dc d) c = false.
Proof.
  intros H K. apply Ascii.eqb_neq. intro E. rewrite <- E, dc_is in K by auto. discriminate.
Qed.

(** ** decimal_Z *)
Lemma dz_fold l : forall a, fold_left (fun a d => a * 10 + d) l a = a * 10 ^ Z.of_nat (length l) + dz l.
Proof.
  unfold dz. induction l as [|d t IH]; intro a.
  - simpl. lia.
  - cbn [fold_left length]. rewrite IH. rewrite (IH (0 * 10 + d)). rewrite Nat2Z.inj_succ, Z.pow_succ_r by lia. ring.
Qed.
Lemma dz_nil : dz [] = 0. Proof. reflexivity. Qed.
Lemma dz_cons d t : dz (d :: t) = d * 10 ^ Z.of_nat (length t) + dz t.
Proof. unfold dz at 1. cbn [fold_left]. rewrite dz_fold. ring. Qed.
Lemma dz_app a b : dz (a ++ b) = dz a * 10 ^ Z.of_nat (length b) + dz b.
Proof. unfold dz at 1. rewrite fold_left_app, dz_fold. reflexivity. Qed.
Lemma pow10_pos n : 0 < 10 ^ Z.of_nat n.
Proof. apply Z.pow_pos_nonneg; lia. Qed.
Lemma dz_bound l : decs l -> 0 <= dz l < 10 ^ Z.of_nat (length l).
Proof.
  induction l as [|d t IH]; intro H.
  - rewrite dz_nil. cbn. lia.
  - inversion H; subst. specialize (IH H3). rewrite dz_cons. cbn [length]. rewrite Nat2Z.inj_succ, Z.pow_succ_r by lia.
    unfold is_decimal in H2. nia.
Qed.
Lemma dz_zeros n : dz (repeat 0 n) = 0.
Proof. induction n; [reflexivity|]. cbn [repeat]. rewrite dz_cons, IHn. lia. Qed.
Lemma DS_zeros n : zeros n = DS (repeat 0 n).
Proof. unfold zeros. induction n; [reflexivity|]. cbn [repeat map]. rewrite IHn. reflexivity. Qed.
Lemma decs_zeros n : decs (repeat 0 n).
Proof. apply Forall_forall. intros x Hx. apply repeat_spec in Hx. subst. unfold is_decimal. lia. Qed.
Lemma decs_app a b : decs a -> decs b -> decs (a ++ b).
Proof. intros. apply Forall_app; auto. Qed.
Lemma decs_firstn n l : decs l -> decs (firstn n l).
Proof. intro H. rewrite <- (firstn_skipn n l) in H. apply Forall_app in H. tauto. Qed.
Lemma decs_skipn n l : decs l -> decs (skipn n l).
Proof. intro H. rewrite <- (firstn_skipn n l) in H. apply Forall_app in H. tauto. Qed.

(** ** find *)
Lemma find_none c l : decs l -> is_digit c = false -> find c (DS l) = None.
Proof.
  intros H K. induction l as [|d t IH]; [reflexivity|]. inversion H; subst. cbn [map find].
  rewrite dc_not, IH by auto. reflexivity.
Qed.
Lemma find_skip c l s : decs l -> is_digit c = false ->
  find c (DS l ++ s) = match find c s with Some i => Some (length l + i)%nat | None => None end.
Proof.
  intros H K. induction l as [|d t IH]; [cbn; destruct (find c s); reflexivity|].
  inversion H; subst. cbn [map find app length]. rewrite dc_not, IH by auto. destruct (find c s); reflexivity.
Qed.
Lemma find_here c s : find c (c :: s) = Some O.
Proof. cbn [find]. rewrite Ascii.eqb_refl. reflexivity. Qed.
Lemma find_next c a s : Ascii.eqb a c = false -> find c (a :: s) = match find c s with Some i => Some (S i) | None => None end.
Proof. intro H. cbn [find]. rewrite H. reflexivity. Qed.
Lemma find_pt l s : decs l -> find pt (DS l ++ pt :: s) = Some (length l).
Proof. intro H. rewrite find_skip, find_here by auto. f_equal. lia. Qed.

(** ** zeros at the ends *)
Fixpoint lead (l : list Z) : nat :=
  match l with [] => O | d :: t => if d =? 0 then S (lead t) else O end.
Lemma lead_le l : (lead l <= length l)%nat.
Proof. induction l as [|d t IH]; cbn; [lia|]. destruct (d =? 0); lia. Qed.
Lemma lead_split l : l = repeat 0 (lead l) ++ skipn (lead l) l.
Proof.
  induction l as [|d t IH]; [reflexivity|]. cbn [lead]. destruct (Z.eqb_spec d 0).
  - subst. cbn [repeat app skipn]. f_equal. exact IH.
  - reflexivity.
Qed.
Lemma lead_head l : match skipn (lead l) l with [] => True | d :: _ => d <> 0 end.
Proof.
  induction l as [|d t IH]; [exact I|]. cbn [lead]. destruct (Z.eqb_spec d 0); [exact IH|]. cbn. auto.
Qed.
Lemma drop_zeros_DS l : decs l -> drop_zeros (DS l) = DS (skipn (lead l) l).
Proof.
  induction l as [|d t IH]; intro H; [reflexivity|]. inversion H; subst. cbn [map drop_zeros lead].
  rewrite dc_zero by auto. destruct (d =? 0); [rewrite IH by auto; reflexivity|reflexivity].
Qed.
Lemma drop_zeros_app l c s : decs l -> Ascii.eqb c "0" = false ->
  drop_zeros (DS l ++ c :: s) = DS (skipn (lead l) l) ++ c :: s.
Proof.
  intros H K. induction l as [|d t IH].
  - cbn. rewrite K. reflexivity.
  - inversion H; subst. cbn [map drop_zeros lead app]. rewrite dc_zero by auto.
    destruct (d =? 0); [rewrite IH by auto; reflexivity|reflexivity].
Qed.
Lemma dz_lead l : dz (skipn (lead l) l) = dz l.
Proof. rewrite (lead_split l) at 3. rewrite dz_app, dz_zeros. lia. Qed.

Lemma rev_rep {A} (a : A) n : rev (repeat a n) = repeat a n.
Proof.
  assert (K : forall m, repeat a m ++ [a] = a :: repeat a m) by (induction m; [reflexivity|]; cbn [repeat app]; rewrite IHm; reflexivity).
  induction n; [reflexivity|]. cbn [repeat rev]. rewrite IHn. apply K.
Qed.

Definition strip (l : list Z) : list Z := rev (skipn (lead (rev l)) (rev l)).
Lemma strip_split l : l = strip l ++ repeat 0 (lead (rev l)).
Proof.
  unfold strip. rewrite <- (rev_involutive l) at 1. rewrite (lead_split (rev l)) at 1.
  rewrite rev_app_distr. f_equal. rewrite rev_rep. reflexivity.
Qed.
Lemma decs_rev l : decs l -> decs (rev l).
Proof. apply Forall_rev. Qed.
Lemma drop_trailing_app l s f : s = DS l -> decs l -> decs f ->
  drop_trailing_zeros (s ++ pt :: DS f) = DS l ++ pt :: DS (strip f).
Proof.
  intros -> H K. unfold drop_trailing_zeros. rewrite rev_app_distr. cbn [rev]. rewrite <- app_assoc. cbn [app].
  rewrite <- (map_rev _ f). rewrite drop_zeros_app by (auto using decs_rev).
  rewrite rev_app_distr. cbn [rev]. rewrite rev_involutive, <- app_assoc. cbn [app]. f_equal. f_equal.
  unfold strip. rewrite map_rev. reflexivity.
Qed.
Lemma strip_decs l : decs l -> decs (strip l).
Proof. intro H. rewrite (strip_split l) in H. apply Forall_app in H. tauto. Qed.
Lemma strip_last l : strip l <> [] -> exists a z, strip l = a ++ [z] /\ z <> 0.
Proof.
  unfold strip. pose proof (lead_head (rev l)) as H. destruct (skipn (lead (rev l)) (rev l)) as [|z a].
  - intro C. cbn in C. congruence.
  - intros _. exists (rev a), z. split; [reflexivity|exact H].
Qed.

(** ** conversions *)
Lemma read_digits_DS l : decs l -> forall acc seen, read_digits (DS l) acc seen =
  (acc * 10 ^ Z.of_nat (length l) + dz l, match l with [] => seen | _ => true end).
Proof.
  induction l as [|d t IH]; intros H acc seen.
  - cbn [map read_digits length]. f_equal. rewrite dz_nil. cbn. lia.
  - inversion H; subst. cbn [map read_digits]. rewrite dc_is, dc_dig, IH by auto. f_equal.
    + rewrite dz_cons. cbn [length]. rewrite Nat2Z.inj_succ, Z.pow_succ_r by lia. ring.
    + destruct t; reflexivity.
Qed.
Lemma read_sign_DS l : decs l -> read_sign (DS l) = (false, DS l).
Proof.
  intro H. destruct l as [|d t]; [reflexivity|]. inversion H; subst. cbn [map read_sign].
  rewrite !dc_not by auto. reflexivity.
Qed.
Lemma skip_ws_DS l : decs l -> skip_ws (DS l) = DS l.
Proof. intro H. destruct l; [reflexivity|]. inversion H; subst. cbn [map skip_ws]. rewrite dc_space by auto. reflexivity. Qed.

Lemma u32_DS l : decs l -> l <> [] -> dz l <= 4294967295 -> numeric_cast_u32 (DS l) = Defined (dz l).
Proof.
  intros H E B. unfold numeric_cast_u32. rewrite skip_ws_DS by auto. destruct l as [|d t]; [congruence|].
  cbn [map]. change (dc d :: DS t) with (DS (d :: t)). rewrite read_sign_DS, read_digits_DS by auto.
  cbn [negb]. rewrite Z.mul_0_l, Z.add_0_l. destruct (dz (d :: t) >? 4294967295) eqn:G; [lia|reflexivity].
Qed.

Lemma sll_text s l : decs l -> l <> [] -> numeric_cast_sll (sign_text s ++ DS l) =
  Defined (if negative s then Z.max sll_min (- dz l) else Z.min sll_max (dz l)).
Proof.
  intros H E. unfold numeric_cast_sll.
  assert (R : forall b, (let '(v, seen) := read_digits (DS l) 0 false in
     Defined (if negb seen then 0 else if b : bool then Z.max sll_min (- v) else Z.min sll_max v)) =
     Defined (if b then Z.max sll_min (- dz l) else Z.min sll_max (dz l))).
  { intro b. rewrite read_digits_DS by auto. rewrite Z.mul_0_l, Z.add_0_l. destruct l; [congruence|]. reflexivity. }
  destruct s as [[|]|]; cbn [sign_text app negative skip_ws].
  - replace (is_space "-") with false by reflexivity. cbn [read_sign]. rewrite Ascii.eqb_refl. exact (R true).
  - replace (is_space "+") with false by reflexivity. cbn [read_sign]. change (Ascii.eqb "+" "-") with false. rewrite Ascii.eqb_refl. exact (R false).
  - rewrite skip_ws_DS by auto. destruct l as [|d t]; [congruence|]. cbn [map].
    change (dc d :: DS t) with (DS (d :: t)). rewrite read_sign_DS by auto. exact (R false).
Qed.

(** ** The parts of a literal *)
Lemma find_app_none c s t : find c s = None ->
  find c (s ++ t) = match find c t with Some i => Some (length s + i)%nat | None => None end.
Proof.
  induction s as [|a s IH]; intro H; cbn [app length].
  - cbn. destruct (find c t); reflexivity.
  - cbn [find] in *. destruct (Ascii.eqb a c); [discriminate|]. destruct (find c s); [discriminate|].
    rewrite IH by auto. destruct (find c t); reflexivity.
Qed.

Definition tail_text (p : bool) (f : list Z) : list ascii := if p then pt :: DS f else [].
Definition body (l : literal) : list ascii := DS (l_int l) ++ tail_text (l_point l) (l_frac l).

Lemma find_sign c s : is_digit c = false -> Ascii.eqb "-" c = false -> Ascii.eqb "+" c = false -> find c (sign_text s) = None.
Proof. intros H H1 H2. destruct s as [[|]|]; cbn [sign_text find]; rewrite ?H1, ?H2; reflexivity. Qed.

Lemma find_tail c p f : decs f -> is_digit c = false -> Ascii.eqb "." c = false -> find c (tail_text p f) = None.
Proof. intros H K D. destruct p; [|reflexivity]. cbn [tail_text]. rewrite find_next, find_none by auto. reflexivity. Qed.

Lemma find_body c l : decs (l_int l) -> decs (l_frac l) -> is_digit c = false -> Ascii.eqb "." c = false -> find c (body l) = None.
Proof. intros. unfold body. rewrite find_skip, find_tail by auto. reflexivity. Qed.

Lemma find_sbody c l : decs (l_int l) -> decs (l_frac l) -> is_digit c = false -> Ascii.eqb "." c = false ->
  Ascii.eqb "-" c = false -> Ascii.eqb "+" c = false -> find c (sign_text (l_sign l) ++ body l) = None.
Proof. intros. rewrite find_app_none by (apply find_sign; auto). rewrite find_body by auto. reflexivity. Qed.

Definition clamped (e : Z) : Z := Z.max sll_min (Z.min sll_max e).

Lemma rd_exponent_text l : valid_literal l ->
  rd_exponent (text l) = Ok (sign_text (l_sign l) ++ body l, clamped (l_exponent l)).
Proof.
  intros (HI & HF & _ & _ & HE). unfold rd_exponent, text, l_exponent.
  replace (sign_text (l_sign l) ++ DS (l_int l) ++ (if l_point l then pt :: DS (l_frac l) else []) ++
    match l_exp l with None => [] | Some (upper, s, ds) => (if upper then "E"%char else "e"%char) :: sign_text s ++ DS ds end)
  with ((sign_text (l_sign l) ++ body l) ++ match l_exp l with None => [] | Some (upper, s, ds) => (if upper then "E"%char else "e"%char) :: sign_text s ++ DS ds end)
  by (unfold body, tail_text; rewrite <- !app_assoc; reflexivity).
  assert (Ne : find "e" (sign_text (l_sign l) ++ body l) = None) by (apply find_sbody; auto).
  assert (NE : find "E" (sign_text (l_sign l) ++ body l) = None) by (apply find_sbody; auto).
  set (b := sign_text (l_sign l) ++ body l) in *. clearbody b.
  destruct (l_exp l) as [[[u s] ds]|].
  - destruct (HE u s ds eq_refl) as [Hd Hn]. rewrite (find_app_none "e") by auto.
    assert (D : forall c, firstn (length b) (b ++ c :: sign_text s ++ DS ds) = b /\ skipn (S (length b)) (b ++ c :: sign_text s ++ DS ds) = sign_text s ++ DS ds).
    { intro c. split; [rewrite firstn_app, Nat.sub_diag, firstn_all; cbn; apply app_nil_r|].
      rewrite skipn_app, (skipn_all2 b) by lia. replace (S (length b) - length b)%nat with 1%nat by lia. reflexivity. }
    assert (C : (if negative s then Z.max sll_min (- dz ds) else Z.min sll_max (dz ds)) = clamped (if negative s then - dz ds else dz ds)).
    { pose proof (dz_bound ds Hd). unfold clamped, sll_min, sll_max in *. destruct (negative s); lia. }
    destruct u.
    + rewrite find_next by reflexivity. rewrite (find_app_none "e") by (apply find_sign; reflexivity).
      rewrite find_none by auto. rewrite (find_app_none "E") by auto. rewrite find_here, Nat.add_0_r.
      destruct (D "E"%char) as [D1 D2]. rewrite D1, D2, sll_text by auto. cbn [of_outcome bind]. rewrite C. reflexivity.
    + rewrite find_here, Nat.add_0_r. destruct (D "e"%char) as [D1 D2]. rewrite D1, D2, sll_text by auto. cbn [of_outcome bind]. rewrite C. reflexivity.
  - rewrite app_nil_r, Ne, NE. reflexivity.
Qed.

Lemma rd_sign_text l : decs (l_int l) -> decs (l_frac l) ->
  rd_sign (sign_text (l_sign l) ++ body l) = (body l, negative (l_sign l)).
Proof.
  intros HI HF. unfold rd_sign.
  assert (N1 : find "-" (body l) = None) by (apply find_body; auto).
  assert (N2 : find "+" (body l) = None) by (apply find_body; auto).
  destruct (l_sign l) as [[|]|]; cbn [sign_text app negative].
  - rewrite find_here. cbn [erase1 firstn skipn app]. unfold erase1. cbn [firstn skipn app]. rewrite N2. reflexivity.
  - rewrite find_next, N1 by reflexivity. rewrite find_here. unfold erase1. cbn [firstn skipn app]. reflexivity.
  - rewrite N1, N2. reflexivity.
Qed.

(** ** Normalised text: digits L, point, digits R, exponent e *)
Definition st (L R : list Z) : list ascii := DS L ++ pt :: DS R.

Lemma st_length L R : length (st L R) = (length L + 1 + length R)%nat.
Proof. unfold st. rewrite app_length. cbn [length]. rewrite !map_length. lia. Qed.

Lemma find_st L R : decs L -> find pt (st L R) = Some (length L).
Proof. apply find_pt. Qed.

(** ** leading zeros and point *)
Lemma skipn_lead_app_nil l : skipn (lead l) l = [] -> dz l = 0.
Proof. intro H. rewrite <- dz_lead, H. reflexivity. Qed.

Lemma lead_zero_all l : decs l -> dz l = 0 -> lead l = length l.
Proof.
  induction l as [|d t IH]; intros H E; [reflexivity|]. inversion H; subst. rewrite dz_cons in E.
  pose proof (dz_bound t H3). pose proof (pow10_pos (length t)). unfold is_decimal in H2.
  assert (d = 0) by nia. subst. cbn [lead length]. rewrite Z.eqb_refl, IH; auto.
Qed.

Inductive normal : list Z -> list Z -> Prop :=
| Normal h t R : h <> 0 -> decs (h :: t) -> decs R -> normal (h :: t) R.

(* the outcome of the first phases *)
Definition phase1 (s : list ascii) (e : Z) : io reading :=
  match rd_leading s e with RZero => Ok RZero | RNum s e => rd_point s e end.

Lemma phase1_spec l e : valid_literal l -> sll_min + Z.of_nat (length (l_frac l)) <= e ->
  e <= sll_max ->
  (dz (l_int l ++ l_frac l) = 0 /\ phase1 (body l) e = Ok RZero) \/
  (dz (l_int l ++ l_frac l) <> 0 /\
   exists L R e' k, phase1 (body l) e = Ok (RNum (st L R) e') /\ normal L R /\
     (length L + length R <= length (l_int l) + length (l_frac l))%nat /\
     e - Z.of_nat (length (l_frac l)) <= e' <= e /\
     0 <= k /\ dz (l_int l ++ l_frac l) = dz (L ++ R) * 10 ^ k /\
     e - Z.of_nat (length (l_frac l)) = e' - Z.of_nat (length R) - k).
Proof.
  intros (HI & HF & Hne & Hnp & _) He1 He2. unfold phase1, body. set (I := l_int l) in *. set (F := l_frac l) in *.
  pose proof (dz_lead I) as LI. pose proof (lead_le I) as LL. pose proof (decs_skipn (lead I) I HI) as HI'.
  pose proof (lead_head I) as HH.
  destruct (l_point l) eqn:P; cbn [tail_text].
  - assert (RL : rd_leading (DS I ++ pt :: DS F) e = RNum (DS (skipn (lead I) I) ++ pt :: DS F) e).
    { unfold rd_leading. rewrite drop_zeros_app by auto. rewrite !app_length. cbn [length]. rewrite !map_length, skipn_length.
      destruct (Nat.ltb_spec (length I - lead I + S (length F)) (length I + S (length F))) as [G|G].
      - destruct (DS (skipn (lead I) I) ++ pt :: DS F) eqn:E; [|reflexivity]. destruct (DS (skipn (lead I) I)); discriminate.
      - replace (lead I) with 0%nat by lia. reflexivity. }
    rewrite RL. unfold rd_point. rewrite find_pt by auto. rewrite (drop_trailing_app _ _ F eq_refl HI' HF).
    pose proof (strip_split F) as SF. pose proof (strip_decs F HF) as HG. pose proof (strip_last F) as SL.
    set (z := lead (rev F)) in *. set (G := strip F) in *.
    assert (DF : dz F = dz G * 10 ^ Z.of_nat z) by (rewrite SF, dz_app, dz_zeros, repeat_length; lia).
    assert (LF : length F = (length G + z)%nat) by (rewrite SF at 1; rewrite app_length, repeat_length; lia).
    assert (DIF : dz (I ++ F) = (dz (skipn (lead I) I) * 10 ^ Z.of_nat (length G) + dz G) * 10 ^ Z.of_nat z).
    { rewrite dz_app, LI, DF, LF, Nat2Z.inj_add, Z.pow_add_r by lia. ring. }
    assert (LIl : length (skipn (lead I) I) = (length I - lead I)%nat) by apply skipn_length.
    destruct (skipn (lead I) I) as [|h t] eqn:EI.
    + cbn [map app]. rewrite Ascii.eqb_refl. destruct G as [|g0 gt] eqn:EG.
      * left. split; [|reflexivity]. rewrite DIF. cbn. lia.
      * right. rewrite <- EG in *. destruct (SL ltac:(rewrite EG; discriminate)) as (a & y & Ea & Hy).
        assert (NZ : dz G <> 0).
        { rewrite Ea, dz_app. rewrite Ea in HG. apply Forall_app in HG. destruct HG as [HG1 HG2]. pose proof (dz_bound a HG1). inversion HG2; subst. unfold is_decimal in *. cbn. lia. }
        assert (NS : match DS G with [] => false | _ :: _ => true end = true) by (rewrite EG; reflexivity).
        destruct (DS G) as [|q qs] eqn:EDG; [discriminate|]. rewrite <- EDG. clear NS.
        rewrite drop_zeros_DS by auto. pose proof (lead_head G) as GH. pose proof (dz_lead G) as GL. pose proof (lead_le G) as GLe.
        pose proof (decs_skipn (lead G) G HG) as GD. assert (GLn : length (skipn (lead G) G) = (length G - lead G)%nat) by apply skipn_length.
        destruct (skipn (lead G) G) as [|h t] eqn:EGs; [cbn in GL; congruence|].
        cbn [map]. change (length (dc h :: DS t)) with (S (length (DS t))). rewrite !map_length. cbn [length] in GLn.
        replace (length G - S (length t))%nat with (lead G) by lia.
        unfold checked64. replace ((sll_min <=? e - (Z.of_nat (lead G) + 1)) && (e - (Z.of_nat (lead G) + 1) <=? sll_max)) with true
          by (symmetry; apply andb_true_iff; split; apply Z.leb_le; unfold sll_min, sll_max in *; lia).
        cbn [bind]. split.
        { rewrite DIF. rewrite dz_nil. pose proof (pow10_pos z). nia. }
        exists [h], t, (e - (Z.of_nat (lead G) + 1)), (Z.of_nat z). split; [reflexivity|]. split.
        { inversion GD; subst. constructor; auto. }
        cbn [length app]. split; [lia|]. split; [lia|]. split; [lia|]. split; [|lia].
        rewrite DIF, dz_nil, GL. ring.
    + right. cbn [map app]. inversion HI'; subst. rewrite dc_not by auto. split.
      { rewrite DIF. pose proof (dz_bound G HG) as BG. pose proof (pow10_pos z). rewrite dz_cons.
        pose proof (dz_bound t H2). pose proof (pow10_pos (length t)). pose proof (pow10_pos (length G)). unfold is_decimal in H1. nia. }
      exists (h :: t), G, e, (Z.of_nat z). split; [reflexivity|]. split; [constructor; auto|]. split; [lia|]. split; [lia|]. split; [lia|]. split; [|lia].
      rewrite DIF, dz_app. ring.
  - assert (EF : F = []) by auto. rewrite EF in *. clear EF. rewrite !app_nil_r in *.
    unfold rd_leading. rewrite drop_zeros_DS by auto. rewrite !map_length, skipn_length.
    assert (LI0 : (0 < length I)%nat) by (destruct I; [congruence|cbn; lia]).
    destruct (skipn (lead I) I) as [|h t] eqn:EI.
    + left. split; [rewrite <- LI; reflexivity|]. assert (lead I = length I). { pose proof (skipn_length (lead I) I) as Q. rewrite EI in Q. cbn in Q. lia. }
      replace (length I - lead I <? length I)%nat with true by (symmetry; apply Nat.ltb_lt; lia). reflexivity.
    + right. assert (RL : (if (length I - lead I <? length I)%nat then match DS (h :: t) with [] => RZero | _ => RNum (DS (h :: t)) e end else RNum (DS I) e) = RNum (DS (h :: t)) e).
      { destruct (Nat.ltb_spec (length I - lead I) (length I)); [reflexivity|]. rewrite <- EI. replace (lead I) with 0%nat by lia. reflexivity. }
      rewrite RL. unfold rd_point. rewrite find_none by auto. split.
      { rewrite <- LI. inversion HI'; subst. rewrite dz_cons. pose proof (dz_bound t H2). pose proof (pow10_pos (length t)). unfold is_decimal in H1. nia. }
      exists (h :: t), [], e, 0. split; [reflexivity|]. split; [inversion HI'; subst; constructor; auto|].
      assert (Q : length (h :: t) = (length I - lead I)%nat) by (rewrite <- EI; apply skipn_length).
      split; [cbn [length] in *; lia|]. cbn [length]. split; [lia|]. split; [lia|]. split; [|lia]. rewrite app_nil_r, LI. lia.
Qed.

(** ** Moving the point *)
Lemma move_right (a r : list ascii) n : (n <= length r)%nat ->
  erase1 (length a) (insert_at (length a + 1 + n) [pt] (a ++ pt :: r)) = a ++ firstn n r ++ pt :: skipn n r.
Proof.
  intro H. unfold erase1, insert_at.
  assert (E1 : firstn (length a + 1 + n) (a ++ pt :: r) = a ++ pt :: firstn n r).
  { rewrite firstn_app, firstn_all2 by lia. replace (length a + 1 + n - length a)%nat with (S n) by lia. reflexivity. }
  assert (E2 : skipn (length a + 1 + n) (a ++ pt :: r) = skipn n r).
  { rewrite skipn_app, skipn_all2 by lia. replace (length a + 1 + n - length a)%nat with (S n) by lia. reflexivity. }
  rewrite E1, E2. rewrite <- app_assoc. cbn [app].
  rewrite firstn_app, Nat.sub_diag, firstn_all. cbn [firstn]. rewrite app_nil_r. f_equal.
  rewrite skipn_app, skipn_all2 by lia. replace (S (length a) - length a)%nat with 1%nat by lia. reflexivity.
Qed.

Lemma move_left (a b r : list ascii) :
  erase1 (length a + length b + 1) (insert_at (length a) [pt] ((a ++ b) ++ pt :: r)) = a ++ pt :: b ++ r.
Proof.
  unfold erase1, insert_at. rewrite <- app_assoc.
  assert (E1 : firstn (length a) (a ++ b ++ pt :: r) = a) by (rewrite firstn_app, Nat.sub_diag, firstn_all; cbn; apply app_nil_r).
  assert (E2 : skipn (length a) (a ++ b ++ pt :: r) = b ++ pt :: r) by (rewrite skipn_app, Nat.sub_diag, skipn_all; reflexivity).
  rewrite E1, E2. cbn [app].
  replace (a ++ pt :: b ++ pt :: r) with ((a ++ pt :: b) ++ pt :: r) by (rewrite <- app_assoc; reflexivity).
  assert (L : length (a ++ pt :: b) = (length a + length b + 1)%nat) by (rewrite app_length; cbn; lia).
  rewrite <- L. rewrite firstn_app, Nat.sub_diag, firstn_all. cbn [firstn]. rewrite app_nil_r.
  rewrite skipn_app, skipn_all2 by lia. replace (S (length (a ++ pt :: b)) - length (a ++ pt :: b))%nat with 1%nat by lia.
  cbn [skipn app]. rewrite <- app_assoc. reflexivity.
Qed.

Lemma normal_app L R M : normal L R -> decs M -> normal (L ++ M) R.
Proof. intros [h t R' H1 H2 H3] HM. cbn [app]. constructor; auto. inversion H2; subst. constructor; auto using decs_app. Qed.
Lemma normal_right L R R' : normal L R -> decs R' -> normal L R'.
Proof. intros [h t R0 H1 H2 H3] HM. constructor; auto. Qed.
Lemma normal_decs L R : normal L R -> decs L /\ decs R.
Proof. intros [h t R' H1 H2 H3]. auto. Qed.

Lemma rd_shift_spec L R e : normal L R -> sll_min <= e <= sll_max ->
  exists L' R' e' k, rd_shift (st L R) e = Ok (st L' R', e') /\ normal L' R' /\ e' mod 8 = 0 /\ e - 7 <= e' <= e /\
    (length L' + length R' <= length L + length R + 7)%nat /\ 0 <= k /\
    dz (L' ++ R') = dz (L ++ R) * 10 ^ k /\ e' - Z.of_nat (length R') = e - Z.of_nat (length R) - k.
Proof.
  intros Hn He. destruct (normal_decs _ _ Hn) as [HL HR]. unfold rd_shift. rewrite find_st by auto. rewrite st_length.
  set (n_shift := if Z.rem e 8 =? 0 then 0 else if e <? 0 then Z.rem e 8 + 8 else Z.rem e 8).
  assert (NS : n_shift = e mod 8).
  { unfold n_shift. clear - e. destruct (Z.eqb_spec (Z.rem e 8) 0) as [Q|Q]; destruct (Z.ltb_spec e 0); Z.to_euclidean_division_equations; lia. }
  clearbody n_shift. set (n := Z.to_nat n_shift).
  replace (length L + 1 + length R - (length L + 1))%nat with (length R) by lia.
  set (z := (n - length R)%nat).
  replace (st L R ++ zeros z) with (DS L ++ pt :: DS (R ++ repeat 0 z)) by (unfold st; rewrite DS_zeros, map_app, <- app_assoc; reflexivity).
  assert (Hn' : normal L (R ++ repeat 0 z)) by (apply normal_right with R; auto using decs_app, decs_zeros).
  pose proof (Z.mod_pos_bound e 8 ltac:(lia)) as B.
  assert (D1 : dz (L ++ R ++ repeat 0 z) = dz (L ++ R) * 10 ^ Z.of_nat z).
  { rewrite app_assoc, (dz_app (L ++ R)), dz_zeros, repeat_length. lia. }
  destruct (Z.eqb_spec n_shift 0) as [E|E].
  - exists L, (R ++ repeat 0 z), e, (Z.of_nat z). split; [reflexivity|]. split; [auto|]. split; [lia|]. split; [lia|].
    rewrite app_length, repeat_length. split; [lia|]. split; [lia|]. split; [exact D1|lia].
  - unfold checked64. replace ((sll_min <=? e - n_shift) && (e - n_shift <=? sll_max)) with true
      by (symmetry; apply andb_true_iff; unfold sll_min, sll_max in *; split; apply Z.leb_le; lia).
    cbn [bind]. replace (length L) with (length (DS L)) by apply map_length.
    rewrite move_right by (rewrite map_length, app_length, repeat_length; lia).
    rewrite firstn_map, skipn_map.
    exists (L ++ firstn n (R ++ repeat 0 z)), (skipn n (R ++ repeat 0 z)), (e - n_shift), (Z.of_nat z).
    split; [unfold st; rewrite map_app, <- app_assoc; reflexivity|].
    assert (HR' : decs (R ++ repeat 0 z)) by auto using decs_app, decs_zeros.
    split; [apply normal_app; auto using decs_firstn; apply normal_right with R; auto using decs_skipn|].
    split; [lia|]. split; [lia|]. rewrite app_length, skipn_length, firstn_length, app_length, repeat_length, ?map_length.
    split; [lia|]. split; [lia|]. split; [|lia]. rewrite <- app_assoc, firstn_skipn. exact D1.
Qed.

Lemma s32_id x : 0 <= x < 2147483648 -> s32 x = x.
Proof. intro H. unfold s32. rewrite u32_small by lia. destruct (Z.ltb_spec x 2147483648); lia. Qed.

Lemma rd_cut_spec L R e : normal L R -> e mod 8 = 0 -> Z.of_nat (length L) < 2147483648 ->
  sll_min <= e -> e + Z.of_nat (length L) <= sll_max ->
  exists L' R' e', rd_cut (st L R) e = Ok (st L' R', e') /\ normal L' R' /\ e' mod 8 = 0 /\ (length L' <= 8)%nat /\
    (length L' + length R' = length L + length R)%nat /\ L' ++ R' = L ++ R /\
    e' - Z.of_nat (length R') = e - Z.of_nat (length R).
Proof.
  intros Hn He8 HB E1 E2. destruct (normal_decs _ _ Hn) as [HL HR]. unfold rd_cut. rewrite find_st by auto.
  destruct (Nat.ltb_spec 8 (length L)) as [G|G].
  - rewrite s32_id by lia. set (m := Z.of_nat (length L)) in *.
    set (n := Z.quot m 8 - (if Z.rem m 8 =? 0 then 1 else 0)).
    assert (Hn1 : 1 <= m - n * 8 <= 8 /\ 0 <= n).
    { unfold n. pose proof (Z.quot_rem' m 8). pose proof (Z.rem_bound_pos m 8 ltac:(lia) ltac:(lia)). destruct (Z.eqb_spec (Z.rem m 8) 0); lia. }
    clearbody n. destruct Hn1 as [Hn1 Hn0].
    replace ((m - n * 8 <? 0) || (m - n * 8 >? Z.of_nat (length (st L R)))) with false
      by (symmetry; apply orb_false_iff; rewrite st_length; split; [apply Z.ltb_ge; lia|rewrite Z.gtb_ltb; apply Z.ltb_ge; lia]).
    unfold checked64. replace ((sll_min <=? e + n * 8) && (e + n * 8 <=? sll_max)) with true
      by (symmetry; apply andb_true_iff; split; apply Z.leb_le; lia). cbn [bind].
    set (i := Z.to_nat (m - n * 8)).
    assert (Hi : (1 <= i <= 8 /\ i <= length L)%nat) by lia.
    assert (SL : st L R = (DS (firstn i L) ++ DS (skipn i L)) ++ pt :: DS R) by (unfold st; rewrite <- map_app, firstn_skipn; reflexivity).
    rewrite SL. assert (Q1 : length (DS (firstn i L)) = i) by (rewrite map_length, firstn_length; lia).
    assert (Q2 : length (DS (skipn i L)) = (length L - i)%nat) by (rewrite map_length, skipn_length; lia).
    replace (insert_at i [pt]) with (insert_at (length (DS (firstn i L))) [pt]) by (rewrite Q1; reflexivity). replace (length L + 1)%nat with (length (DS (firstn i L)) + length (DS (skipn i L)) + 1)%nat by lia.
    rewrite move_left. rewrite <- map_app.
    exists (firstn i L), (skipn i L ++ R), (e + n * 8). split; [reflexivity|].
    split.
    { destruct Hn as [h t R0 H1 H2 H3]. destruct i as [|i']; [lia|]. cbn [firstn skipn]. inversion H2; subst. constructor; auto.
      - constructor; auto using decs_firstn.
      - auto using decs_app, decs_skipn. }
    split; [lia|]. rewrite firstn_length, app_length, skipn_length. split; [lia|]. split; [lia|].
    split; [rewrite app_assoc, firstn_skipn; reflexivity|]. rewrite Nat2Z.inj_add. lia.
  - exists L, R, e. repeat split; auto.
Qed.

Lemma rd_pad_spec L R : decs L -> decs R -> Z.of_nat (length L + length R) < 2147483647 ->
  exists k, rd_pad (st L R) = st L (R ++ repeat 0 k) /\ ((length R + k) mod 8 = 0)%nat.
Proof.
  intros HL HR HB. unfold rd_pad. rewrite find_st by auto. rewrite st_length. rewrite (s32_id (Z.of_nat (length L))), (s32_id (Z.of_nat (length L + 1 + length R) - 1)) by lia. rewrite s32_id by lia.
  replace (Z.of_nat (length L + 1 + length R) - 1 - Z.of_nat (length L)) with (Z.of_nat (length R)) by lia. rewrite Z.rem_mod_nonneg by lia.
  eexists. split.
  - unfold st. rewrite DS_zeros, map_app, <- app_assoc. cbn [app]. reflexivity.
  - apply Nat2Z.inj. rewrite Nat2Z.inj_mod, Nat2Z.inj_add. destruct (Z.eqb_spec (Z.of_nat (length R) mod 8) 0); lia.
Qed.

(** ** Limbs *)
Lemma Bp_pow n : Bp n = 10 ^ (8 * Z.of_nat n).
Proof.
  induction n as [|n IH]; [apply Bp_0|]. rewrite Bp_S, IH. replace (8 * Z.of_nat (S n)) with (8 + 8 * Z.of_nat n) by lia.
  rewrite Z.pow_add_r by lia. reflexivity.
Qed.

Lemma groups_ok n : forall l, decs l -> length l = (8 * n)%nat ->
  exists g, read_groups (groups n (DS l)) = Ok g /\ length g = n /\ Forall is_limb g /\ mv g = dz l.
Proof.
  induction n as [|n IH]; intros l H E.
  - exists []. destruct l; [|discriminate]. repeat split; constructor.
  - cbn [groups read_groups]. rewrite firstn_map, skipn_map.
    assert (L8 : length (firstn 8 l) = 8%nat) by (rewrite firstn_length; lia).
    assert (LS : length (skipn 8 l) = (8 * n)%nat) by (rewrite skipn_length; lia).
    pose proof (dz_bound (firstn 8 l) (decs_firstn 8 l H)) as B. rewrite L8 in B. change (10 ^ Z.of_nat 8) with 100000000 in B.
    rewrite u32_DS; [|auto using decs_firstn|intro C; rewrite C in L8; discriminate|lia].
    destruct (IH (skipn 8 l)) as (g & G1 & G2 & G3 & G4); auto using decs_skipn.
    cbn [of_outcome bind]. rewrite G1. cbn [bind]. exists (dz (firstn 8 l) :: g). split; [reflexivity|]. cbn [length].
    split; [lia|]. split; [constructor; auto; unfold is_limb; lia|].
    rewrite mv_cons, G4, G2. rewrite <- (firstn_skipn 8 l) at 3. rewrite dz_app, LS. f_equal. f_equal.
    rewrite Bp_pow. f_equal. lia.
Qed.

Lemma rd_limbs_spec d L R : valid_digits d -> normal L R -> (length L <= 8)%nat -> (length R mod 8 = 0)%nat ->
  exists l, rd_limbs d (st L R) = Ok l /\ length l = Nn d /\ Forall is_limb l /\ limb l 0 <> 0 /\
    mv l * 10 ^ Z.of_nat (length R) <= dz (L ++ R) * 10 ^ (8 * (elem_number d - 1)) < (mv l + 1) * 10 ^ Z.of_nat (length R).
Proof.
  intros Hd Hn HL8 HR8. destruct (normal_decs _ _ Hn) as [HL HR]. unfold rd_limbs. rewrite find_st by auto. cbv zeta.
  pose proof (elem_number_bounds d Hd) as BN. pose proof (Nn_Z d Hd) as NZ. unfold N. set (M := Z.to_nat ((elem_number d - 1) * 8)).
  set (Rt := firstn M R).
  assert (S1 : (if (M <? length (st L R) - length L)%nat then firstn (length L + 1 + M) (st L R) else st L R) = st L Rt).
  { rewrite st_length. destruct (Nat.ltb_spec M (length L + 1 + length R - length L)).
    - unfold st, Rt. rewrite <- firstn_map. rewrite firstn_app, map_length. rewrite firstn_all2 by (rewrite map_length; lia).
      replace (length L + 1 + M - length L)%nat with (S M) by lia. reflexivity.
    - unfold Rt. rewrite firstn_all2 by lia. reflexivity. }
  rewrite S1. assert (HRt : decs Rt) by (apply decs_firstn; auto).
  assert (F1 : firstn (length L) (st L Rt) = DS L).
  { unfold st. rewrite firstn_app, map_length, Nat.sub_diag. rewrite firstn_all2 by (rewrite map_length; lia). apply app_nil_r. }
  assert (F2 : skipn (length L + 1) (st L Rt) = DS Rt).
  { unfold st. rewrite skipn_app, map_length. rewrite skipn_all2 by (rewrite map_length; lia). replace (length L + 1 - length L)%nat with 1%nat by lia. reflexivity. }
  rewrite F1, F2, st_length. replace (length L + 1 + length Rt - (length L + 1))%nat with (length Rt) by lia.
  pose proof (dz_bound L HL) as BL. assert (P8 : 10 ^ Z.of_nat (length L) <= 10 ^ 8) by (apply Z.pow_le_mono_r; lia). change (10 ^ 8) with 100000000 in P8.
  assert (LN : L <> []) by (destruct Hn; discriminate).
  rewrite u32_DS by (auto; lia). cbn [of_outcome bind].
  assert (M8 : (M mod 8 = 0)%nat) by (apply Nat2Z.inj; rewrite Nat2Z.inj_mod; lia).
  assert (LRt : length Rt = Nat.min M (length R)) by apply firstn_length.
  assert (R8 : (length Rt mod 8 = 0)%nat) by (rewrite LRt; destruct (Nat.min_spec M (length R)) as [[_ ->]|[_ ->]]; auto).
  set (n := (length Rt / 8)%nat). assert (Ln : length Rt = (8 * n)%nat) by (unfold n; pose proof (Nat.div_mod (length Rt) 8); lia).
  destruct (groups_ok n Rt HRt Ln) as (g & G1 & G2 & G3 & G4). rewrite G1. cbn [bind].
  assert (NB : (n + 1 <= Nn d)%nat) by lia.
  assert (FL : firstn (Nn d) (dz L :: g ++ repeat 0 (Nn d)) = dz L :: g ++ repeat 0 (Nn d - 1 - n)).
  { replace (dz L :: g ++ repeat 0 (Nn d)) with ((dz L :: g) ++ repeat 0 (Nn d)) by reflexivity.
    rewrite firstn_app. cbn [length]. rewrite G2. rewrite firstn_all2 by (cbn [length]; lia).
    cbn [app]. f_equal. f_equal. replace (repeat 0 (Nn d)) with (repeat 0 (Nn d - S n) ++ repeat 0 (S n)) by (rewrite <- repeat_app; f_equal; lia).
    rewrite firstn_app, repeat_length, Nat.sub_diag. rewrite firstn_all2 by (rewrite repeat_length; lia). cbn [firstn]. rewrite app_nil_r. f_equal. lia. }
  rewrite FL. eexists. split; [reflexivity|]. cbn [length]. rewrite app_length, repeat_length, G2.
  split; [lia|]. split.
  { constructor; [unfold is_limb; lia|]. apply limbs_app; auto. apply limbs_repeat0. }
  split.
  { unfold limb. cbn [nth]. destruct Hn as [h t R0 H1 H2 H3]. inversion H2; subst. rewrite dz_cons. pose proof (dz_bound t H5). pose proof (pow10_pos (length t)). unfold is_decimal in H4. nia. }
  rewrite mv_cons, mv_app, mv_repeat0, app_length, repeat_length, G2, G4.
  set (k := (Nn d - 1 - n)%nat). rewrite Bp_add.
  replace (dz L * (Bp n * Bp k) + (dz Rt * Bp k + 0)) with (dz (L ++ Rt) * Bp k)
    by (rewrite dz_app, Ln, Nat2Z.inj_mul, (Bp_pow n); change (Z.of_nat 8) with 8; ring).
  assert (BM : Bp k * 10 ^ Z.of_nat (length Rt) = 10 ^ (8 * (elem_number d - 1))) by (rewrite Bp_pow, <- Z.pow_add_r by lia; f_equal; lia).
  destruct (Nat.le_gt_cases (length R) M) as [Q|Q].
  - assert (ER : Rt = R) by (apply firstn_all2; lia). rewrite ER in *. rewrite <- BM. pose proof (Bp_pos k). pose proof (pow10_pos (length R)). nia.
  - assert (K0 : k = 0%nat) by lia. rewrite K0 in *. rewrite Bp_0 in *. rewrite Z.mul_1_r. rewrite Z.mul_1_l in BM. rewrite <- BM.
    assert (SR : R = Rt ++ skipn M R) by (symmetry; apply firstn_skipn).
    assert (LR : Z.of_nat (length R) = Z.of_nat (length Rt) + Z.of_nat (length (skipn M R))) by (rewrite <- Nat2Z.inj_add, <- app_length, <- SR; reflexivity).
    pose proof (dz_bound (skipn M R) (decs_skipn M R HR)) as BS.
    rewrite LR, Z.pow_add_r by lia. replace (dz (L ++ R)) with (dz (L ++ Rt) * 10 ^ Z.of_nat (length (skipn M R)) + dz (skipn M R)) by (rewrite SR at 3; rewrite app_assoc, (dz_app (L ++ Rt)); reflexivity).
    pose proof (pow10_pos (length Rt)). set (a := 10 ^ Z.of_nat (length Rt)) in *. set (b := 10 ^ Z.of_nat (length (skipn M R))) in *. set (x := dz (L ++ Rt)) in *. set (y := dz (skipn M R)) in *. clearbody a b x y. nia.
Qed.

(** ** The whole of rd_string *)
Lemma text_length l : (length (l_int l) + length (l_frac l) <= length (text l) + (if l_point l then 0 else length (l_frac l)))%nat.
Proof.
  unfold text. rewrite !app_length, !map_length. destruct (l_point l); cbn [length]; rewrite ?map_length; lia.
Qed.

Open Scope R_scope.
Local Notation p10 := (powerRZ 10).

Lemma rd_string_digits d x l : valid_digits d -> valid_literal l -> (Z.of_nat (length (text l)) < 2147483600)%Z ->
  (Z.abs (l_exponent l) <= 9000000000000000000)%Z ->
  (dz (l_int l ++ l_frac l) = 0%Z /\ rd_string d x (text l) = Ok (zero d)) \/
  (dz (l_int l ++ l_frac l) <> 0%Z /\ exists r, rd_string d x (text l) = Ok (rd_range d r) /\
     neg r = negative (l_sign l) /\ cls r = cls x /\ prec r = prec x /\ (exp r mod 8 = 0)%Z /\
     length (data r) = Nn d /\ Forall is_limb (data r) /\ limb (data r) 0 <> 0%Z /\
     IZR (mv (data r)) * ulp d (exp r) <= Rabs (literal_value l) < (IZR (mv (data r)) + 1) * ulp d (exp r)).
Proof.
  intros Hd V HL HE. pose proof V as (HI & HF & _ & Hp & _). unfold rd_string. rewrite rd_exponent_text by auto.
  cbn [bind]. rewrite rd_sign_text by auto.
  assert (LT : (length (l_int l) + length (l_frac l) <= length (text l))%nat).
  { pose proof (text_length l). destruct (l_point l); [lia|]. rewrite Hp in * by auto. cbn [length] in *. lia. }
  set (e := clamped (l_exponent l)). assert (Ee : e = l_exponent l) by (unfold e, clamped, sll_min, sll_max; lia). clearbody e.
  destruct (phase1_spec l e V) as [[Z P]|[Z (L & R & e1 & k1 & P & Nm & Ln & B & K1 & D1 & X1)]]; try (unfold sll_min, sll_max; lia).
  - left. split; [auto|]. unfold phase1 in P. destruct (rd_leading (body l) e); [reflexivity|]. rewrite P. reflexivity.
  - right. split; [auto|]. unfold phase1 in P. destruct (rd_leading (body l) e) as [|s' e'']; [discriminate|]. rewrite P. cbn [bind].
    destruct (rd_shift_spec L R e1 Nm) as (L2 & R2 & e2 & k2 & P2 & Nm2 & M2 & B2 & Ln2 & K2 & D2 & X2); [unfold sll_min, sll_max; lia|].
    rewrite P2. cbn [bind].
    destruct (rd_cut_spec L2 R2 e2 Nm2 M2) as (L3 & R3 & e3 & P3 & Nm3 & M3 & L38 & Ln3 & D3 & X3); try (unfold sll_min, sll_max; lia).
    rewrite P3. cbn [bind]. destruct (normal_decs _ _ Nm3) as [HL3 HR3].
    destruct (rd_pad_spec L3 R3 HL3 HR3) as (k4 & P4 & M4); [lia|]. rewrite P4.
    destruct (rd_limbs_spec d L3 (R3 ++ repeat 0%Z k4) Hd) as (dt & P5 & Q1 & Q2 & Q3 & Q4); auto.
    { apply normal_right with R3; auto using decs_app, decs_zeros. }
    { rewrite app_length, repeat_length. auto. }
    rewrite P5. cbn [bind]. eexists. split; [reflexivity|]. cbn [neg cls prec exp data].
    split; [reflexivity|]. split; [reflexivity|]. split; [reflexivity|]. split; [auto|]. split; [auto|]. split; [auto|]. split; [auto|].
    assert (LV : Rabs (literal_value l) = IZR (dz (l_int l ++ l_frac l)) * p10 (e - Z.of_nat (length (l_frac l)))).
    { unfold literal_value. rewrite <- Ee. rewrite !Rabs_mult. rewrite (Rabs_pos_eq (p10 _)) by (left; apply p10_pos).
      assert (0 <= IZR (dz (l_int l ++ l_frac l))) by (apply (IZR_le 0), dz_bound, decs_app; auto).
      rewrite (Rabs_pos_eq (IZR _)) by auto. f_equal. destruct (negative (l_sign l)); rewrite ?Rabs_left, ?Rabs_R1 by lra; lra. }
    set (R4 := R3 ++ repeat 0%Z k4) in *. rewrite app_assoc, (dz_app (L3 ++ R3)), dz_zeros, Z.add_0_r in Q4 || unfold R4 in Q4.
    assert (D4 : dz (L3 ++ R4) = (dz (L3 ++ R3) * 10 ^ Z.of_nat k4)%Z) by (unfold R4; rewrite app_assoc, (dz_app (L3 ++ R3)), dz_zeros, repeat_length; lia).
    assert (X4 : Z.of_nat (length R4) = (Z.of_nat (length R3) + Z.of_nat k4)%Z) by (unfold R4; rewrite app_length, repeat_length; lia).
    fold R4 in Q4. rewrite LV, D1.
    assert (E : IZR (dz (L ++ R) * 10 ^ k1) * p10 (e - Z.of_nat (length (l_frac l))) = IZR (dz (L3 ++ R4)) * p10 (e3 - Z.of_nat (length R4))).
    { rewrite D4, D3, D2, !mult_IZR, <- !p10_nonneg by lia. rewrite !Rmult_assoc, <- !p10_add. f_equal. f_equal. lia. }
    rewrite E. unfold ulp. set (n := Z.of_nat (length R4)) in *.
    assert (Hn : (0 <= n)%Z) by (unfold n; lia). clearbody n.
    pose proof (elem_number_bounds d Hd). set (w := (8 * (elem_number d - 1))%Z) in *. assert (Hw : (0 <= w)%Z) by lia. clearbody w.
    destruct Q4 as [Qa Qb]. apply IZR_le in Qa. apply IZR_lt in Qb. rewrite !mult_IZR, ?plus_IZR, <- !p10_nonneg in Qa, Qb by lia.
    pose proof (p10_pos (e3 - w - n)) as PP.
    assert (U1 : p10 (e3 - w) = p10 n * p10 (e3 - w - n)) by (rewrite <- p10_add; f_equal; lia).
    assert (U2 : p10 (e3 - n) = p10 w * p10 (e3 - w - n)) by (rewrite <- p10_add; f_equal; lia).
    rewrite U1, U2, <- !Rmult_assoc. split; [apply Rmult_le_compat_r; lra|apply Rmult_lt_compat_r; [lra|rewrite plus_IZR in Qb; lra]].
Qed.

Lemma isone_exp0 dt b c p : isone (mkef dt 0 b c p) = false.
Proof.
  unfold isone. cbn [neg data exp]. destruct (negb b && isfinite (mkef dt 0 b c p)); [|reflexivity].
  destruct (Z.eqb_spec (limb dt 0) 1) as [E|E]; cbn [andb].
  - change (0 =? 0)%Z with true. cbn [andb]. destruct dt as [|a t]; [discriminate|]. unfold limb in E. cbn in E. subst. reflexivity.
  - change (0 =? -8)%Z with false. rewrite andb_false_r. reflexivity.
Qed.

Lemma wf_zero_ef d : valid_digits d -> finite d (zero d) /\ value (zero d) = 0 /\ full d (zero d).
Proof.
  intro Hd. assert (D : data (zero d) = repeat 0%Z (Nn d)).
  { unfold zero, of_ull. cbn [ull_limbs Z.eqb rev length Nat.min firstn app data]. rewrite Nat.sub_0_r. reflexivity. }
  pose proof (elem_number_bounds d Hd). pose proof (Nn_Z d Hd).
  assert (F : finite d (zero d)).
  { split; [|reflexivity]. constructor.
    - rewrite D, repeat_length. auto.
    - rewrite D. apply limbs_repeat0.
    - reflexivity.
    - cbn. unfold N. lia.
    - intros _ _. rewrite D. split; [|reflexivity]. apply Forall_forall. intros a Ha. apply repeat_spec in Ha. auto.
    - intro C. cbn in C. congruence. }
  split; [exact F|]. split; [|reflexivity].
  apply (finite_zero_value d); auto. rewrite D. unfold limb. pose proof (Nn_ge7 d Hd). destruct (Nn d); [lia|reflexivity].
Qed.

Lemma signed_inf_wf d b : valid_digits d -> wf d (signed_inf d b) /\ is_inf (signed_inf d b) b /\ full d (signed_inf d b).
Proof.
  intro Hd. pose proof (elem_number_bounds d Hd). pose proof (Nn_Z d Hd). rewrite signed_inf_eq. split; [|split; [split; reflexivity|reflexivity]].
  constructor; cbn; try congruence; try tauto.
  - rewrite repeat_length. auto.
  - apply limbs_repeat0.
  - unfold N. lia.
  - intros _. split; auto. apply Forall_forall. intros a Ha. apply repeat_spec in Ha. auto.
Qed.

Lemma rd_range_spec d r : valid_digits d -> cls r = Finite -> (2 <= prec r <= elem_number d)%Z -> (exp r mod 8 = 0)%Z ->
  length (data r) = Nn d -> Forall is_limb (data r) -> limb (data r) 0 <> 0%Z ->
  ((max_exp10 < exp r)%Z /\ rd_range d r = signed_inf d (neg r)) \/
  ((exp r < min_exp10)%Z /\ rd_range d r = zero d) \/
  ((min_exp10 <= exp r <= max_exp10)%Z /\ rd_range d r = r /\ finite d r).
Proof.
  intros Hd C Hp H8 HL HF H0. unfold rd_range. destruct (Z.gtb_spec (exp r) max_exp10) as [G|G].
  - left. split; [lia|]. rewrite signed_inf_eq. cbn [exp]. reflexivity.
  - right. destruct (Z.leb_spec (exp r) min_exp10) as [K|K].
    + destruct (Z.eqb_spec (exp r) min_exp10) as [E|E].
      * right. split; [unfold min_exp10, max_exp10 in *; lia|]. rewrite isone_exp0. split; [reflexivity|].
        split; auto. constructor; auto; [rewrite HL; apply Nn_Z; auto| |]; intros; [unfold limb in H0; congruence|congruence].
      * left. split; [lia|reflexivity].
    + right. split; [lia|]. split; [reflexivity|].
      split; auto. constructor; auto; [rewrite HL; apply Nn_Z; auto| |]; intros; [unfold limb in H0; congruence|congruence].
Qed.

Lemma Rabs_case v : (v < 0 /\ Rabs v = - v) \/ (0 <= v /\ Rabs v = v).
Proof. unfold Rabs. destruct (Rcase_abs v); lra. Qed.

Lemma lv_sign l : valid_literal l -> dz (l_int l ++ l_frac l) <> 0%Z ->
  if negative (l_sign l) then literal_value l < 0 else 0 < literal_value l.
Proof.
  intros (HI & HF & _) Z. pose proof (dz_bound _ (decs_app _ _ HI HF)) as B. unfold literal_value.
  set (m := dz (l_int l ++ l_frac l)) in *. set (q := p10 _). assert (0 < q) by apply p10_pos.
  assert (0 < IZR m) by (apply (IZR_lt 0); lia). assert (0 < IZR m * q) by (apply Rmult_lt_0_compat; auto).
  destruct (negative (l_sign l)); lra.
Qed.

Lemma rd_literal d x l : valid_digits d -> cls x = Finite -> (2 <= prec x <= elem_number d)%Z -> valid_literal l ->
  (Z.of_nat (length (text l)) < 2147483600)%Z -> (Z.abs (l_exponent l) <= 9000000000000000000)%Z ->
  exists r, rd_string d x (text l) = Ok r /\ read_result d (literal_value l) r /\
    (prec x = elem_number d -> full d r).
Proof.
  intros Hd C Hp V HL HE. destruct (rd_string_digits d x l Hd V HL HE) as [[Z P]|[Z (r & P & A1 & A2 & A3 & A4 & A5 & A6 & A7 & A8)]].
  - exists (zero d). split; [auto|]. destruct (wf_zero_ef d Hd) as (F & V0 & Fu). split; [|auto].
    assert (LV : literal_value l = 0) by (unfold literal_value; rewrite Z; lra). rewrite LV. unfold read_result. rewrite Rabs_R0.
    pose proof (p10_pos 2147483624) as PA. pose proof (p10_pos (-2147483616)) as PB. set (pa := p10 2147483624) in *. set (pb := p10 (-2147483616)) in *. clearbody pa pb.
    split; [apply F|]. split; [auto|]. split; [lra|]. split; [lra|]. split; [lra|]. intro; lra.
  - exists (rd_range d r). split; [auto|]. unfold read_result. rewrite <- A2 in C. rewrite <- A3 in Hp.
    pose proof (lv_sign l V Z) as SG. rewrite <- A1 in SG. set (v := literal_value l) in *. clearbody v.
    assert (MB : (Bp (Nn d - 1) <= mv (data r) < Bp (Nn d))%Z).
    { rewrite <- A5. split; [apply mv_ge_lead; auto; intro E; rewrite E in A7; apply A7; reflexivity|apply mv_bound; auto]. }
    assert (U1 : IZR (Bp (Nn d - 1)) * ulp d (exp r) = p10 (exp r)).
    { replace (Nn d - 1)%nat with (Z.to_nat (elem_number d - 1)) by (rewrite <- (Nn_Z d Hd); lia). rewrite ulp_Bp; [f_equal; lia|pose proof (elem_number_bounds d Hd); lia|lia]. }
    assert (U0 : IZR (Bp (Nn d)) * ulp d (exp r) = p10 (exp r + 8)).
    { replace (Nn d)%nat with (Z.to_nat (elem_number d - 0)) by (rewrite <- (Nn_Z d Hd); lia). rewrite ulp_Bp; [f_equal; lia|pose proof (elem_number_bounds d Hd); lia|lia]. }
    pose proof (ulp_pos d (exp r)) as UP.
    assert (RB : p10 (exp r) <= Rabs v < p10 (exp r + 8)).
    { rewrite <- U1, <- U0. destruct MB as [M1 M2]. assert (M3 : (mv (data r) + 1 <= Bp (Nn d))%Z) by lia. apply IZR_le in M1, M3. rewrite plus_IZR in M3.
      split; [apply Rle_trans with (IZR (mv (data r)) * ulp d (exp r)); [apply Rmult_le_compat_r; lra|lra]|].
      apply Rlt_le_trans with ((IZR (mv (data r)) + 1) * ulp d (exp r)); [lra|apply Rmult_le_compat_r; lra]. }
    assert (E8 : exists q, exp r = (8 * q)%Z) by (exists (exp r / 8)%Z; lia).
    assert (Vn : v <> 0) by (destruct (neg r); lra).
    destruct (rd_range_spec d r Hd C Hp A4 A5 A6 A7) as [[G ->]|[[G ->]|(G & -> & F)]].
    + destruct (signed_inf_wf d (neg r) Hd) as (W & Wi & Wf). split; [|auto].
      assert (Q : p10 2147483624 <= p10 (exp r)) by (apply p10_le; unfold max_exp10 in G; destruct E8; lia).
      split; [auto|]. split; [congruence|]. pose proof (p10_lt (-2147483616) 2147483624 ltac:(lia)) as PL.
      pose proof (p10_pos (-2147483616)) as PB. set (pa := p10 2147483624) in *. set (pb := p10 (-2147483616)) in *. clearbody pa pb.
      split; [lra|].
      destruct (neg r) eqn:N.
      * split; [lra|]. split; [auto|]. lra.
      * split; [auto|]. split; [lra|]. lra.
    + destruct (wf_zero_ef d Hd) as (F & V0 & Fu). split; [|auto].
      assert (Q : p10 (exp r + 8) <= p10 (-2147483616)) by (apply p10_le; unfold min_exp10 in G; destruct E8; lia).
      pose proof (p10_lt (-2147483616) 2147483624 ltac:(lia)) as PL.
      pose proof (p10_pos (-2147483616)) as PB. set (pa := p10 2147483624) in *. set (pb := p10 (-2147483616)) in *. clearbody pa pb.
      split; [apply F|]. split; [auto|]. split; [auto|]. assert (AV := Rabs_case v). destruct AV as [[V0' AV]|[V0' AV]]; rewrite AV in *; (split; [intro; lra|split; [intro; lra|intro; lra]]).
    + split; [|intro Hx; unfold full; congruence].
      assert (Q1 : p10 (-2147483616) <= p10 (exp r)) by (apply p10_le; unfold min_exp10 in G; lia).
      assert (Q2 : p10 (exp r + 8) <= p10 2147483624) by (apply p10_le; unfold max_exp10 in G; lia).
      pose proof (p10_pos (-2147483616)) as PB. set (pa := p10 2147483624) in *. set (pb := p10 (-2147483616)) in *. clearbody pa pb.
      assert (VA : Rabs (value r) = IZR (mv (data r)) * ulp d (exp r)) by (apply value_abs_mv; auto; apply F).
      split; [apply F|]. split; [congruence|]. split; [lra|]. split; [destruct (Rabs_case v) as [[V0' AV]|[V0' AV]]; rewrite AV in *; lra|]. split; [destruct (Rabs_case v) as [[V0' AV]|[V0' AV]]; rewrite AV in *; lra|].
      intros _. split; [auto|]. split.
      * unfold cut_to. rewrite VA. split; [lra|]. split.
        -- pose proof (finite_value_sign d r Hd F A7) as SR. destruct (neg r); [|apply Rmult_le_pos; lra]. replace (value r * v) with ((- value r) * (- v)) by ring. apply Rmult_le_pos; lra.
        -- exists (sv r). apply value_sv. rewrite A5. apply Nn_Z. auto.
      * intros k Hk. rewrite VA. destruct (Z_le_gt_dec k (exp r)).
        -- apply Rle_trans with (p10 (exp r)); [apply p10_le; auto|]. rewrite <- U1. apply Rmult_le_compat_r; [lra|]. apply IZR_le. lia.
        -- assert (KU : (exp r - 8 * (elem_number d - 1) <= k)%Z) by (pose proof (elem_number_bounds d Hd); lia).
           assert (KE : p10 k = IZR (10 ^ (k - (exp r - 8 * (elem_number d - 1)))) * ulp d (exp r)).
           { unfold ulp. rewrite <- p10_nonneg by lia. rewrite <- p10_add. f_equal. lia. }
           rewrite KE in *. apply Rmult_le_compat_r; [lra|]. apply IZR_le. set (w := (10 ^ (k - (exp r - 8 * (elem_number d - 1))))%Z) in *.
           assert (W : IZR w * ulp d (exp r) < (IZR (mv (data r)) + 1) * ulp d (exp r)) by lra. apply Rmult_lt_reg_r in W; [|lra]. rewrite <- plus_IZR in W. apply lt_IZR in W. lia.
Qed.
