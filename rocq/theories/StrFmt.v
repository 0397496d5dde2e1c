(** * The texts written by wr_string (proofs only). *)

From Coq Require Import ZArith List Bool Ascii Reals Lra Lia.
From Verif Require Import Model Spec Limbs Value CmpProofs AddProofs OrderProofs SpecText ModelStr StrProofs StrOut.
From Verif Require OrderDec.
Import ListNotations.
Open Scope Z_scope.
Ltac Zify.zify_post_hook ::= Z.div_mod_to_equations.
Local Notation p10 := (powerRZ 10).

(** ** finish *)
Lemma rev_st L R : rev (st L R) = rev (DS R) ++ pt :: rev (DS L).
Proof. unfold st. rewrite rev_app_distr. cbn [rev]. rewrite <- app_assoc. reflexivity. Qed.

Lemma finish_plain L R p sp : decs R -> R <> [] -> finish (st L R) p sp false = Ok (st L R).
Proof.
  intros H Hne. unfold finish. destruct sp; [reflexivity|]. rewrite rev_st. destruct (exists_last Hne) as (R0 & y & ->).
  apply Forall_app in H. destruct H as [_ H]. inversion H; subst. rewrite map_app, rev_app_distr. cbn [map rev app].
  rewrite dc_not by auto. reflexivity.
Qed.

Definition nonempty (l : list Z) : bool := match l with [] => false | _ => true end.

Lemma finish_trim L R p : decs L -> decs R -> finish (st L R) p false true = Ok (DS L ++ tail_text (nonempty (strip R)) (strip R)).
Proof.
  intros HL HR. assert (DT : drop_trailing_zeros (st L R) = st L (strip R)) by (unfold st; apply drop_trailing_app; auto). unfold finish. rewrite !DT. clear DT.
  pose proof (strip_decs R HR) as HS. destruct (strip R) as [|s0 S0] eqn:E.
  - cbn [nonempty tail_text]. rewrite app_nil_r. rewrite rev_st. cbn [map rev app]. rewrite Ascii.eqb_refl, rev_involutive. reflexivity.
  - rewrite <- E in *. assert (Hne : strip R <> []) by (rewrite E; discriminate). replace (nonempty (strip R)) with true by (rewrite E; reflexivity).
    pose proof (finish_plain L (strip R) p false HS Hne) as F. unfold finish in F. rewrite F. reflexivity.
Qed.

Lemma u64_id x : 0 <= x < 18446744073709551616 -> u64 x = x.
Proof. apply u64_small. Qed.

(* showpoint: the digits after the trimming are filled up to the precision *)
Lemma finish_showpoint L R p : decs L -> decs R -> L <> [] -> 0 <= p <= sll_max ->
  (hd 0 L <> 0 \/ (2 <= length L)%nat -> Z.of_nat (length L + length (strip R)) <= p) ->
  (L = [0] -> Z.of_nat (length (skipn (lead (strip R)) (strip R))) <= p) ->
  exists k, finish (st L R) p true true = Ok (st L (strip R ++ repeat 0 k)) /\
    (hd 0 L <> 0 \/ (2 <= length L)%nat -> Z.of_nat (length L + length (strip R) + k) = p).
Proof.
  intros HL HR HN Hp H1 H2. assert (DT : drop_trailing_zeros (st L R) = st L (strip R)) by (unfold st; apply drop_trailing_app; auto). unfold finish. rewrite !DT. clear DT.
  pose proof (strip_decs R HR) as HS. set (S := strip R) in *. clearbody S.
  assert (G : forall n, 0 <= n <= sll_max -> (hd 0 L <> 0 \/ (2 <= length L)%nat -> Z.of_nat (length L + length S) + n = p) ->
    exists k, insert_n (st L S) n = Ok (st L (S ++ repeat 0 k)) /\ (hd 0 L <> 0 \/ (2 <= length L)%nat -> Z.of_nat (length L + length S + k) = p)).
  { intros n Hn Hk. exists (Z.to_nat n). split; [|intro K; specialize (Hk K); lia]. unfold insert_n. replace (n >? sll_max) with false by (symmetry; rewrite Z.gtb_ltb; apply Z.ltb_ge; lia).
    unfold st. rewrite DS_zeros, map_app, <- app_assoc. reflexivity. }
  assert (LS : Z.of_nat (length (st L S)) - 1 = Z.of_nat (length L + length S)) by (rewrite st_length; lia).
  unfold sll_max in *. destruct L as [|a L']; [congruence|]. inversion HL; subst.
  unfold extend. rewrite LS. change (st (a :: L') S) with (dc a :: st L' S). destruct L' as [|b L''].
  - cbn [st map app]. rewrite dc_zero by auto. rewrite Ascii.eqb_refl, andb_true_r.
    change (dc a :: pt :: DS S) with (st [a] S). destruct (Z.eqb_spec a 0) as [E|E].
    + destruct S as [|s0 S0]; [apply G; [lia|cbn [hd length]; intros [|]; lia]|]. rewrite <- (app_nil_r (DS (s0 :: S0))). cbn [map app]. rewrite app_nil_r.
      change (dc s0 :: DS S0) with (DS (s0 :: S0)). rewrite drop_zeros_DS, map_length by auto. subst. specialize (H2 eq_refl).
      apply G; [rewrite u64_id; lia|cbn [hd length]; intros [|]; lia].
    + specialize (H1 (or_introl E)). apply G; rewrite u64_id; lia.
  - inversion H4; subst. cbn [st map app]. rewrite (dc_not b) by auto. rewrite andb_false_r.
    change (dc a :: dc b :: DS L'' ++ pt :: DS S) with (st (a :: b :: L'') S).
    assert (H0 : (2 <= length (a :: b :: L''))%nat) by (cbn [length]; lia).
    specialize (H1 (or_intror H0)). apply G; rewrite u64_id; lia.
Qed.

(** ** exponent *)
(** ** scientific *)
Lemma insert_point L R : insert_at (length L) [pt] (DS (L ++ R)) = st L R.
Proof.
  unfold insert_at, st. rewrite map_app. rewrite <- (map_length dc L). rewrite firstn_app, Nat.sub_diag, firstn_all. cbn [firstn]. rewrite app_nil_r.
  rewrite skipn_app, Nat.sub_diag, skipn_all. reflexivity.
Qed.

Lemma wr_scientific_shape h t e p sp upper trim : decs (h :: t) -> 1 <= p -> Z.of_nat (length t) <= p ->
  wr_scientific (DS (h :: t)) e p sp upper trim =
  bind (finish (st [h] (t ++ repeat 0 (Z.to_nat (p - Z.of_nat (length t))))) p sp trim) (fun s => Ok (s ++ exponent_text e upper)).
Proof.
  intros H Hp Hl. unfold wr_scientific. change (DS (h :: t)) with (dc h :: DS t). cbn [length]. rewrite map_length.
  replace (Z.of_nat (S (length t)) - 1) with (Z.of_nat (length t)) by lia.
  rewrite DS_zeros. change (dc h :: DS t) with (DS (h :: t)). rewrite <- map_app.
  change ((h :: t) ++ repeat 0 (Z.to_nat (p - Z.of_nat (length t)))) with ([h] ++ (t ++ repeat 0 (Z.to_nat (p - Z.of_nat (length t))))).
  change 1%nat with (length [h]) at 1. rewrite insert_point. reflexivity.
Qed.

(** ** fixed *)
(* the digits before and after the point *)
Definition fix_int (ds : list Z) (e : Z) : list Z :=
  if e <? 0 then [0] else firstn (Z.to_nat (e + 1)) (ds ++ repeat 0 (Z.to_nat (e + 1 - Z.of_nat (length ds)))).
Definition fix_frac (ds : list Z) (e p : Z) : list Z :=
  let f := if e <? 0 then repeat 0 (Z.to_nat (Z.min (- e - 1) p)) ++ ds else skipn (Z.to_nat (e + 1)) ds in
  f ++ repeat 0 (Z.to_nat (p - Z.of_nat (length f))).

Lemma wr_fixed_shape ds e p sp trim : decs ds ->
  wr_fixed (DS ds) e p sp trim = finish (st (fix_int ds e) (fix_frac ds e p)) p sp trim.
Proof.
  intro H. unfold wr_fixed, fix_int, fix_frac. rewrite map_length. destruct (Z.ltb_spec e 0) as [E|E].
  - f_equal. rewrite !DS_zeros. unfold st. cbn [map app]. rewrite !map_app, !map_length, <- !app_assoc.
    change (dc 0) with "0"%char. do 2 f_equal. f_equal. f_equal. f_equal. f_equal. f_equal. rewrite app_length. lia.
  - set (m := Z.to_nat (e + 1)). set (z := Z.to_nat (e + 1 - Z.of_nat (length ds))). rewrite DS_zeros, <- map_app.
    set (W := ds ++ repeat 0 z). assert (LW : (m <= length W)%nat) by (unfold W; rewrite app_length, repeat_length; lia).
    assert (IW : insert_at m [pt] (DS W) = st (firstn m W) (skipn m W)).
    { replace m with (length (firstn m W)) at 1 by (rewrite firstn_length; lia). rewrite <- (firstn_skipn m W) at 2. apply insert_point. }
    rewrite IW. f_equal. assert (SW : skipn m W = skipn m ds).
    { unfold W. rewrite skipn_app. destruct (Nat.le_gt_cases m (length ds)).
      - replace z with 0%nat by lia. cbn [repeat]. rewrite skipn_nil. apply app_nil_r.
      - rewrite (skipn_all2 ds) by lia. rewrite skipn_all2 by (rewrite repeat_length; lia). reflexivity. }
    rewrite SW, st_length, firstn_length. unfold st. rewrite DS_zeros, map_app, <- app_assoc. cbn [app]. do 3 f_equal. f_equal. f_equal.
    rewrite skipn_length. lia.
Qed.

Lemma strip_dz l : dz (strip l) * 10 ^ (Z.of_nat (length l) - Z.of_nat (length (strip l))) = dz l /\ (length (strip l) <= length l)%nat.
Proof.
  pose proof (strip_split l) as E. set (z := lead (rev l)) in *.
  assert (LL : length l = (length (strip l) + z)%nat) by (rewrite E at 1; rewrite app_length, repeat_length; lia).
  split; [|lia]. transitivity (dz (strip l ++ repeat 0 z)); [|rewrite <- E; reflexivity]. rewrite dz_app, dz_zeros, repeat_length. replace (Z.of_nat (length l) - Z.of_nat (length (strip l))) with (Z.of_nat z) by lia. lia.
Qed.

Open Scope R_scope.
(* value of digits around a point *)
Definition pv (L F : list Z) : R := IZR (dz (L ++ F)) * p10 (- Z.of_nat (length F)).

Lemma pv_zeros L R k : pv L (R ++ repeat 0%Z k) = pv L R.
Proof.
  unfold pv. rewrite app_assoc, (dz_app (L ++ R)), dz_zeros, Z.add_0_r, repeat_length, app_length, repeat_length, mult_IZR, <- p10_nonneg by lia.
  rewrite Rmult_assoc, <- p10_add. f_equal. f_equal. lia.
Qed.
Lemma pv_strip L R : pv L (strip R) = pv L R.
Proof. transitivity (pv L (strip R ++ repeat 0%Z (lead (rev R)))); [rewrite pv_zeros; reflexivity|]. rewrite <- strip_split. reflexivity. Qed.

Lemma pv_fixed ds e p : (0 <= p)%Z -> decs ds -> (e < 0 -> Z.of_nat (length ds) - e - 1 <= p \/ ds = [])%Z ->
  pv (fix_int ds e) (fix_frac ds e p) = IZR (dz ds) * p10 (e + 1 - Z.of_nat (length ds)).
Proof.
  intros Hp H HF. unfold fix_int, fix_frac. rewrite pv_zeros. unfold pv. destruct (Z.ltb_spec e 0) as [E|E].
  - cbn [app]. rewrite dz_cons, Z.mul_0_l, Z.add_0_l, dz_app, dz_zeros, Z.mul_0_l, Z.add_0_l. destruct (HF E) as [B| ->].
    + f_equal. f_equal. rewrite app_length, repeat_length. lia.
    + rewrite dz_nil. lra.
  - set (m := Z.to_nat (e + 1)). destruct (Nat.le_gt_cases m (length ds)).
    + replace (Z.to_nat (e + 1 - Z.of_nat (length ds))) with 0%nat by lia. cbn [repeat]. rewrite app_nil_r, firstn_skipn, skipn_length. f_equal. f_equal. lia.
    + rewrite (skipn_all2 ds) by lia. rewrite app_nil_r. set (z := Z.to_nat _). rewrite firstn_all2 by (rewrite app_length, repeat_length; lia).
      rewrite dz_app, dz_zeros, Z.add_0_r, repeat_length, mult_IZR, <- p10_nonneg by lia. cbn [length]. change (- Z.of_nat 0)%Z with 0%Z. rewrite p10_0, Rmult_1_r. f_equal. f_equal. lia.
Qed.

Lemma fix_decs ds e p : decs ds -> decs (fix_int ds e) /\ decs (fix_frac ds e p) /\ fix_int ds e <> [].
Proof.
  intro H. unfold fix_int, fix_frac. split; [|split].
  - destruct (e <? 0)%Z; [constructor; [unfold is_decimal; lia|constructor]|]. apply decs_firstn, decs_app; auto using decs_zeros.
  - apply decs_app; [|apply decs_zeros]. destruct (e <? 0)%Z; [apply decs_app; auto using decs_zeros|apply decs_skipn; auto].
  - destruct (Z.ltb_spec e 0); [discriminate|]. set (z := Z.to_nat (e + 1 - Z.of_nat (length ds))). destruct (Z.to_nat (e + 1)) eqn:E; [lia|].
    destruct (ds ++ repeat 0%Z z) eqn:K; [|discriminate]. apply (f_equal (@length Z)) in K. rewrite app_length, repeat_length in K. cbn in K. lia.
Qed.

Lemma fix_frac_length ds e p : (0 <= p)%Z -> (e < 0 -> Z.of_nat (length ds) - e - 1 <= p \/ ds = [])%Z -> (0 <= e -> Z.of_nat (length ds) - (e + 1) <= p)%Z ->
  Z.of_nat (length (fix_frac ds e p)) = p.
Proof.
  intros Hp HF H. unfold fix_frac. rewrite app_length, repeat_length. destruct (Z.ltb_spec e 0) as [E|E].
  - rewrite app_length, repeat_length. destruct (HF E) as [| ->]; cbn [length]; lia.
  - rewrite skipn_length. lia.
Qed.

(** ** Orders *)
Lemma p10_lt_inv a b : p10 a < p10 b -> (a < b)%Z.
Proof. intro H. destruct (Z.lt_ge_cases a b) as [|G]; auto. pose proof (p10_le b a G). lra. Qed.

Lemma order_unique v a b : decimal_order v a -> decimal_order v b -> a = b.
Proof.
  intros [[E A]|A] [[E' B]|B]; try congruence.
  - subst v. rewrite Rabs_R0 in B. pose proof (p10_pos b). lra.
  - subst v. rewrite Rabs_R0 in A. pose proof (p10_pos a). lra.
  - assert (a < b + 1)%Z by (apply p10_lt_inv; lra). assert (b < a + 1)%Z by (apply p10_lt_inv; lra). lia.
Qed.

Lemma order_decimal d x : valid_digits d -> finite d x -> decimal_order (value x) (order x).
Proof.
  intros Hd F. destruct (Req_EM_T (value x) 0) as [E|E].
  - left. split; [auto|]. apply OrderDec.order_special. apply (finite_zero_iff d x Hd F). auto.
  - right. apply (OrderDec.order_spec d); auto.
Qed.

Lemma order_exp d x : valid_digits d -> finite d x -> (order x = 0 \/ exp x <= order x <= exp x + 7)%Z.
Proof.
  intros Hd F. destruct (Z.eq_dec (limb (data x) 0) 0) as [E|E]; [left; apply OrderDec.order_special; exact E|]. right.
  destruct (finite_abs_bounds d x Hd F E) as [A B]. assert (value x <> 0) by (rewrite <- (finite_zero_iff d x Hd F); auto).
  destruct (OrderDec.order_spec d x Hd F H) as [C D].
  assert (exp x < order x + 1)%Z by (apply p10_lt_inv; lra). assert (order x < exp x + 8)%Z by (apply p10_lt_inv; lra). lia.
Qed.

Lemma signed_rounded d x q v : valid_digits d -> finite d x -> 0 <= v -> rounded_to q (Rabs (value x)) v ->
  forall sp, rounded_to q (value x) ((if negative (shown_sign (neg x) sp) then -1 else 1) * v).
Proof.
  intros Hd F Hv (k & A & B & C) sp. rewrite Rabs_Rabsolu in B. rewrite (Rabs_right v) in A by lra. exists k. split; [|split; [exact B|]].
  - rewrite Rabs_mult, (Rabs_right v) by lra. rewrite A. unfold shown_sign. destruct (neg x); cbn [negative].
    + rewrite Rabs_left by lra. lra.
    + destruct sp; cbn [negative]; rewrite Rabs_R1; lra.
  - destruct (Z.eq_dec (limb (data x) 0) 0) as [E|E].
    + rewrite (proj1 (finite_zero_iff d x Hd F) E). lra.
    + pose proof (finite_value_sign d x Hd F E) as S. unfold shown_sign. destruct (neg x); cbn [negative].
      * pose proof (Rmult_le_pos v (- value x) Hv ltac:(lra)). lra.
      * pose proof (Rmult_le_pos v (value x) Hv ltac:(lra)). destruct sp; cbn [negative]; lra.
Qed.

Lemma rounded_coarser q q' s : 0 < q <= q' -> Rabs s < q / 2 -> rounded_to q' s 0.
Proof. intros H A. exists 0%Z. rewrite Rabs_R0. pose proof (Rabs_pos s). repeat split; lra. Qed.

Lemma signed_text (x : ef) (sp : bool) (s : list ascii) : (if isneg x then "-"%char :: s else if sp then "+"%char :: s else s) = sign_text (shown_sign (neg x) sp) ++ s.
Proof. unfold isneg, shown_sign. destruct (neg x); [reflexivity|]. destruct sp; reflexivity. Qed.

Lemma fill_justified os t : fill os t = justified (s_fill os) (s_width os) (f_left os) t.
Proof. reflexivity. Qed.

Lemma dz_nonneg l : decs l -> (0 <= dz l)%Z.
Proof. intro H. pose proof (dz_bound l H). lia. Qed.

Lemma trimmed_strip l : decs l -> trimmed (strip l).
Proof.
  intro H. unfold trimmed. destruct (strip l) as [|a s] eqn:E; [auto|]. right. rewrite <- E. destruct (strip_last l) as (u & z & K & N); [rewrite E; discriminate|]. rewrite K, last_last. exact N.
Qed.

(* the literal written in scientific notation *)
Definition sci_lit (sg : option bool) (h : Z) (b : bool) (f : list Z) (u : bool) (e : Z) (ds : list Z) : literal :=
  mkliteral sg [h] b f (Some (u, Some (e <? 0)%Z, ds)).
Definition pos_lit (sg : option bool) (L : list Z) (b : bool) (f : list Z) : literal := mkliteral sg L b f None.

Lemma sci_text sg h b f u e ds : text (sci_lit sg h b f u e ds) =
  sign_text sg ++ (DS [h] ++ tail_text b f) ++ (if u then "E"%char else "e"%char) :: sign_text (Some (e <? 0)%Z) ++ DS ds.
Proof. unfold sci_lit, text. cbn [l_sign l_int l_point l_frac l_exp]. unfold tail_text. rewrite <- app_assoc. reflexivity. Qed.
Lemma pos_text sg L b f : text (pos_lit sg L b f) = sign_text sg ++ (DS L ++ tail_text b f).
Proof. unfold pos_lit, text. cbn [l_sign l_int l_point l_frac l_exp]. unfold tail_text. rewrite app_nil_r. reflexivity. Qed.

Lemma sci_value sg h b f u e ds : (if negative (Some (e <? 0)%Z) then - dz ds else dz ds)%Z = e ->
  literal_value (sci_lit sg h b f u e ds) = (if negative sg then -1 else 1) * (IZR (dz (h :: f)) * p10 (e - Z.of_nat (length f))).
Proof. intro H. unfold literal_value, l_exponent, sci_lit. cbn [l_sign l_int l_point l_frac l_exp app]. rewrite H. lra. Qed.
Lemma pos_value sg L b f : literal_value (pos_lit sg L b f) = (if negative sg then -1 else 1) * pv L f.
Proof. unfold literal_value, l_exponent, pos_lit, pv. cbn [l_sign l_int l_point l_frac l_exp]. rewrite Z.sub_0_l. lra. Qed.

Lemma exponent_text_full e upper : (Z.abs e < 10 ^ 20)%Z ->
  exists ds, exponent_text e upper = (if upper then "E"%char else "e"%char) :: sign_text (Some (e <? 0)%Z) ++ DS ds /\
    decs ds /\ ds <> [] /\ (if negative (Some (e <? 0)%Z) then - dz ds else dz ds)%Z = e /\ (length ds mod 3 = 0)%nat /\ (length ds <= 22)%nat.
Proof.
  intro H. unfold exponent_text. rewrite lexical_cast_DS, map_length, DS_zeros.
  destruct (digits_spec (Z.abs e)) as (A & B & C & _); [lia|]. set (z := match (length (digits (Z.abs e)) mod 3)%nat with O => O | S _ as r => (3 - r)%nat end).
  exists (repeat 0%Z z ++ digits (Z.abs e)). split.
  - rewrite map_app. destruct (Z.ltb_spec e 0); reflexivity.
  - split; [apply decs_app; auto using decs_zeros|]. split; [destruct (digits (Z.abs e)); [cbn in C; lia|destruct z; discriminate]|]. split.
    + rewrite dz_app, dz_zeros, B. cbn [negative]. destruct (Z.ltb_spec e 0); lia.
    + rewrite app_length, repeat_length. pose proof (digits_len (Z.abs e) 20 ltac:(lia) ltac:(lia)) as D20. unfold z. set (m := length _) in *. clearbody m. clear - D20.
      assert (ZB : (match (m mod 3)%nat with O => O | S _ as r => (3 - r)%nat end <= 2)%nat) by (destruct (m mod 3)%nat; lia). split; [|lia]. clear D20 ZB.
      pose proof (Nat.div_mod m 3 ltac:(lia)) as Q. pose proof (Nat.mod_upper_bound m 3 ltac:(lia)) as U.
      destruct (m mod 3)%nat as [|[|[|r]]] eqn:E; try lia; cbn [Nat.sub].
      * rewrite Q. replace (0 + (3 * (m / 3) + 0))%nat with (m / 3 * 3)%nat by lia. apply Nat.mod_mul. lia.
      * rewrite Q. replace (2 + (3 * (m / 3) + 1))%nat with ((m / 3 + 1) * 3)%nat by lia. apply Nat.mod_mul. lia.
      * rewrite Q. replace (1 + (3 * (m / 3) + 2))%nat with ((m / 3 + 1) * 3)%nat by lia. apply Nat.mod_mul. lia.
Qed.

(** ** Scientific *)
Lemma wr_sci_spec d x os : valid_digits d -> finite d x -> (Z.abs (exp x) < 2 ^ 63)%Z -> f_scientific os = true ->
  let p := (if (s_precision os <=? 0)%Z then 6 else s_precision os)%Z in
  exists l, wr_string d x os = Ok (justified (s_fill os) (s_width os) (f_left os) (text l)) /\
    valid_literal l /\ l_sign l = shown_sign (neg x) (f_showpos os) /\ scientific (f_uppercase os) (value x) l /\
    l_point l = true /\ Z.of_nat (length (l_frac l)) = p /\
    rounded_to (p10 (order x + 1 - Z.min (d + 2) (p + 1))) (value x) (literal_value l) /\
    (Z.abs (l_exponent l) <= Z.abs (order x) + 1)%Z /\ (Z.of_nat (length (text l)) <= p + 40)%Z.
Proof.
  intros Hd F HE HS p. assert (Hp : (1 <= p)%Z) by (unfold p; destruct (Z.leb_spec (s_precision os) 0); lia).
  assert (FI : isfinite x = true) by (unfold isfinite; rewrite (proj2 F); reflexivity).
  unfold wr_string. rewrite FI. cbn [negb]. unfold digits_wanted, use_scientific. rewrite HS. cbn [orb negb]. change (os_precision os) with p.
  unfold max_digits10. replace (d + 1 + 1)%Z with (d + 2)%Z by lia. set (n := Z.to_nat (Z.min (d + 2) (1 + p))).
  assert (Hn : Z.of_nat n = Z.min (d + 2) (p + 1)) by (unfold n; destruct Hd; lia). assert (n1 : (1 <= n)%nat) by (destruct Hd; lia).
  destruct (gos_spec d x n Hd F) as [(A & _)|(ds & e & G & D1 & D2 & D3 & D4 & D5 & D6 & D7)]; [lia|]. rewrite G. cbn [bind].
  pose proof (elem_number_digits d Hd) as ND. destruct ds as [|h t]; [cbn [length] in *; destruct Hd; lia|].
  assert (Lt : (Z.of_nat (length t) <= p)%Z) by (cbn [length] in *; lia).
  rewrite wr_scientific_shape by auto. set (f := t ++ repeat 0%Z (Z.to_nat (p - Z.of_nat (length t)))).
  assert (Lf : Z.of_nat (length f) = p) by (unfold f; rewrite app_length, repeat_length; lia).
  inversion D1 as [|? ? Hh Ht]; subst. assert (Df : decs f) by (unfold f; apply decs_app; auto using decs_zeros).
  rewrite finish_plain; [|auto|intro E; rewrite E in Lf; cbn in Lf; lia]. cbn [bind].
  assert (Be : (Z.abs e <= Z.abs (exp x) + 8)%Z) by (destruct D4 as [|[]]; destruct (order_exp d x Hd F) as [|]; lia).
  destruct (exponent_text_full e (f_uppercase os)) as (es & E1 & E2 & E3 & E4 & E5 & E6); [change (2 ^ 63)%Z with 9223372036854775808%Z in HE; change (10 ^ 20)%Z with 100000000000000000000%Z; lia|].
  exists (sci_lit (shown_sign (neg x) (f_showpos os)) h true f (f_uppercase os) e es). split; [|split; [|split; [reflexivity|split; [|split; [reflexivity|split; [exact Lf|split; [|split]]]]]]].
  - rewrite signed_text, sci_text, E1, fill_justified. reflexivity.
  - unfold valid_literal, sci_lit. cbn [l_sign l_int l_point l_frac l_exp]. split; [constructor; auto|]. split; [exact Df|]. split; [discriminate|]. split; [discriminate|].
    intros u s ds [= <- <- <-]. auto.
  - unfold scientific, sci_lit. cbn [l_sign l_int l_point l_frac l_exp length]. split; [reflexivity|]. split.
    + intros Hv [= E]. apply D6; auto. lia.
    + exists (e <? 0)%Z, es. auto.
  - rewrite sci_value by exact E4. rewrite <- Hn. apply (signed_rounded d); auto.
    + apply Rmult_le_pos; [apply IZR_le, dz_nonneg; constructor; auto|left; apply p10_pos].
    + replace (IZR (dz (h :: f)) * p10 (e - Z.of_nat (length f))) with (IZR (dz (h :: t)) * p10 (e + 1 - Z.of_nat (length (h :: t)))); [exact D5|].
      unfold f. change (h :: t ++ ?r) with ((h :: t) ++ r). rewrite (dz_app (h :: t)), dz_zeros, Z.add_0_r, repeat_length, app_length, repeat_length, mult_IZR, <- p10_nonneg by lia.
      rewrite Rmult_assoc, <- p10_add. f_equal. f_equal. cbn [length]. lia.
  - unfold l_exponent, sci_lit. cbn [l_exp]. rewrite E4. destruct D4 as [|[]]; lia.
  - rewrite sci_text, !app_length. unfold tail_text. cbn [length]. rewrite app_length, !map_length. cbn [length].
    assert (forall o, (length (sign_text o) <= 1)%nat) by (intros [[|]|]; cbn; lia). pose proof (H (shown_sign (neg x) (f_showpos os))). pose proof (H (Some (e <? 0)%Z)). lia.
Qed.

(** ** Fixed *)
Lemma fix_int_head ds e : ds <> [] -> (e < 0 -> fix_int ds e = [0%Z])%Z /\ (0 <= e -> hd 0%Z (fix_int ds e) = hd 0%Z ds /\ Z.of_nat (length (fix_int ds e)) = e + 1)%Z.
Proof.
  intro N. unfold fix_int. split; intro E; destruct (Z.ltb_spec e 0); try lia; [reflexivity|]. split.
  - destruct ds as [|a t]; [congruence|]. destruct (Z.to_nat (e + 1)) eqn:K; [lia|]. reflexivity.
  - rewrite firstn_length, app_length, repeat_length. lia.
Qed.

(* everything about the digits, for a positional notation asking for n digits *)
Lemma positional_digits d x p n : valid_digits d -> finite d x -> (1 <= p)%Z -> (Z.of_nat n <= Z.max (order x + 1 + p) 0)%Z ->
  (n = 0%nat -> (order x + 1 + p <= 0)%Z /\ ~ (p10 (order x + 1) / 2 <= Rabs (value x))) ->
  exists ds e, get_output_string d x (order x) n = Ok (DS ds, e) /\ decs ds /\ (length ds <= n)%nat /\
    (e = order x \/ e = (order x + 1)%Z /\ value x <> 0) /\
    rounded_to (p10 (order x + 1 - Z.of_nat n)) (Rabs (value x)) (pv (fix_int ds e) (fix_frac ds e p)) /\
    decs (fix_int ds e) /\ decs (fix_frac ds e p) /\ fix_int ds e <> [] /\ Z.of_nat (length (fix_frac ds e p)) = p /\
    (fix_int ds e = [0%Z] \/ hd 0%Z (fix_int ds e) <> 0%Z /\ Z.of_nat (length (fix_int ds e)) = (e + 1)%Z /\ (0 <= e)%Z).
Proof.
  intros Hd F Hp Hn H0. destruct (gos_spec d x n Hd F) as [(A & B & _)|(ds & e & G & D1 & D2 & D3 & D4 & D5 & D6 & D7)].
  { exfalso. destruct (H0 A) as [_ N]. apply N. rewrite A in B. rewrite Z.sub_0_r in B. exact B. }
  exists ds, e. split; [exact G|]. split; [auto|]. split; [auto|]. split; [auto|].
  destruct (fix_decs ds e p D1) as (I1 & I2 & I3). assert (Eo : (e = order x \/ e = order x + 1)%Z) by (destruct D4 as [|[]]; auto).
  assert (C1 : (e < 0 -> Z.of_nat (length ds) - e - 1 <= p \/ ds = [])%Z).
  { intro E. destruct ds as [|a t]; [auto|]. left. cbn [length] in *. lia. }
  assert (C2 : (0 <= e -> Z.of_nat (length ds) - (e + 1) <= p)%Z) by (intro E; lia).
  split; [rewrite pv_fixed by (auto; lia); exact D5|]. split; [auto|]. split; [auto|]. split; [auto|]. split; [apply fix_frac_length; auto; lia|].
  destruct (Z.lt_ge_cases e 0) as [E|E].
  - left. unfold fix_int. destruct (Z.ltb_spec e 0); [reflexivity|lia].
  - assert (n1 : n <> 0%nat) by (intro; destruct (H0 H); lia). pose proof (elem_number_digits d Hd) as ND.
    assert (N : ds <> []) by (intros ->; cbn [length] in *; destruct Hd; lia). destruct (fix_int_head ds e N) as [_ K]. destruct (K E) as [K1 K2].
    destruct (Req_EM_T (value x) 0) as [V|V].
    + left. assert (O : order x = 0%Z) by (apply OrderDec.order_special; apply (finite_zero_iff d x Hd F); auto).
      assert (e = 0%Z) by (destruct D4 as [|[]]; [lia|congruence]). subst e.
      assert (dz ds = 0%Z).
      { destruct D5 as (k & A & B & C). rewrite V, Rabs_R0 in *. set (q := p10 (order x + 1 - Z.of_nat n)) in *. assert (Q : 0 < q) by apply p10_pos. rewrite Rabs_R0 in B.
        assert (IZR k < 1) by (apply (Rmult_lt_reg_r q); lra). assert (-1 < IZR k) by (apply (Rmult_lt_reg_r q); lra).
        assert (k = 0%Z) by (apply lt_IZR in H; apply (lt_IZR (-1)) in H1; lia). subst k. rewrite Rmult_0_l in A.
        pose proof (p10_pos (0 + 1 - Z.of_nat (length ds))) as PP. apply eq_IZR. apply (Rmult_eq_reg_r (p10 (0 + 1 - Z.of_nat (length ds)))); [|lra]. rewrite Rmult_0_l.
        destruct (Req_dec (IZR (dz ds) * p10 (0 + 1 - Z.of_nat (length ds))) 0) as [Z|Z]; auto. apply Rabs_no_R0 in Z. congruence. }
      destruct ds as [|a t]; [congruence|]. unfold fix_int. cbn. rewrite dz_cons in H. inversion D1; subst. unfold is_decimal in *. pose proof (dz_bound t H4). pose proof (pow10_pos (length t)).
      change (Z.to_nat (0 + 1)) with 1%nat. cbn [firstn]. f_equal. clear - H H3 H1 H2. nia.
    + right. rewrite K1. auto.
Qed.

Lemma wr_fixed_spec d x os : valid_digits d -> finite d x -> f_scientific os = false -> f_fixed os = true ->
  let p := (if (s_precision os <=? 0)%Z then 6 else s_precision os)%Z in
  (forall k, (k <= - p)%Z -> ~ p10 k / 2 <= Rabs (value x) < p10 k) ->
  exists l, wr_string d x os = Ok (justified (s_fill os) (s_width os) (f_left os) (text l)) /\
    valid_literal l /\ l_sign l = shown_sign (neg x) (f_showpos os) /\ positional l /\
    l_point l = true /\ Z.of_nat (length (l_frac l)) = p /\
    rounded_to (p10 (Z.max (- p) (order x - d - 1))) (value x) (literal_value l).
Proof.
  intros Hd F HS HF p NB. assert (Hp : (1 <= p)%Z) by (unfold p; destruct (Z.leb_spec (s_precision os) 0); lia).
  assert (FI : isfinite x = true) by (unfold isfinite; rewrite (proj2 F); reflexivity).
  unfold wr_string. rewrite FI. cbn [negb]. unfold digits_wanted, use_scientific. rewrite HS, HF. cbn [orb negb]. change (os_precision os) with p.
  unfold max_digits10. set (n := Z.to_nat _).
  assert (Hn : Z.of_nat n = Z.min (Z.max (order x + 1 + p) 0) (d + 2)) by (unfold n; destruct Hd; destruct (Z.geb_spec (order x) 0); lia). clearbody n.
  assert (H0 : n = 0%nat -> (order x + 1 + p <= 0)%Z /\ ~ (p10 (order x + 1) / 2 <= Rabs (value x))).
  { intros ->. assert (order x + 1 + p <= 0)%Z by (destruct Hd; lia). split; [auto|]. intro K. apply (NB (order x + 1)%Z); [lia|]. split; [auto|].
    destruct (order_decimal d x Hd F) as [[A B]|A]; [lia|lra]. }
  destruct (positional_digits d x p n Hd F Hp ltac:(lia) H0) as (ds & e & G & D1 & D2 & D3 & D4 & I1 & I2 & I3 & I4 & I5). rewrite G. cbn [bind].
  rewrite wr_fixed_shape by auto. rewrite finish_plain; [|auto|intro E; rewrite E in I4; cbn in I4; lia]. cbn [bind].
  set (L := fix_int ds e) in *. set (R := fix_frac ds e p) in *.
  exists (pos_lit (shown_sign (neg x) (f_showpos os)) L true R). split; [|split; [|split; [reflexivity|split; [|split; [reflexivity|split; [exact I4|]]]]]].
  - rewrite signed_text, pos_text, fill_justified. reflexivity.
  - unfold valid_literal, pos_lit. cbn [l_sign l_int l_point l_frac l_exp]. split; [auto|]. split; [auto|]. split; [destruct L; [congruence|discriminate]|]. split; discriminate.
  - unfold positional, pos_lit. cbn [l_int l_exp]. split; [reflexivity|]. destruct I5 as [|[]]; auto.
  - rewrite pos_value. apply (signed_rounded d); auto.
    + unfold pv. apply Rmult_le_pos; [apply IZR_le, dz_nonneg, decs_app; auto|left; apply p10_pos].
    + destruct (Z.le_gt_cases 0 (order x + 1 + p)) as [K|K].
      * replace (Z.max (- p) (order x - d - 1))%Z with (order x + 1 - Z.of_nat n)%Z by lia. exact D4.
      * assert (n0 : n = 0%nat) by (destruct Hd; lia). destruct (H0 n0) as [_ N]. apply Rnot_le_lt in N. subst n. cbn in D2. destruct ds; [|cbn in D2; lia].
        assert (PZ : pv L R = 0).
        { unfold L, R. rewrite pv_fixed; [rewrite dz_nil; lra|lia|constructor|auto]. }
        rewrite PZ. apply (rounded_coarser (p10 (order x + 1))).
        { split; [apply p10_pos|]. apply p10_le. lia. }
        { rewrite Rabs_Rabsolu. exact N. }
Qed.

(** ** Default notation *)
Lemma strip_zeros l k : strip (l ++ repeat 0%Z k) = strip l.
Proof.
  unfold strip. rewrite rev_app_distr, rev_rep. induction k as [|k IH]; [reflexivity|]. cbn [repeat app lead]. cbn [skipn]. exact IH.
Qed.

Lemma sig_len z : forall s j ds, s ++ repeat 0%Z j = repeat 0%Z z ++ ds -> (length (skipn (lead s) s) <= length ds)%nat.
Proof.
  induction z as [|z IH]; intros s j ds E.
  - cbn in E. rewrite skipn_length. rewrite <- E, app_length. lia.
  - destruct s as [|a s]; [cbn; lia|]. cbn [repeat app] in E. injection E as -> E. cbn [lead]. cbn [skipn]. eapply IH; eauto.
Qed.

Lemma strip_len l : (length (strip l) <= length l)%nat.
Proof. apply strip_dz. Qed.

Lemma wr_default_spec d x os : valid_digits d -> finite d x -> (Z.abs (exp x) < 2 ^ 63)%Z -> f_scientific os = false -> f_fixed os = false ->
  (s_precision os <= 9223372036854775807)%Z ->
  let p := (if (s_precision os <=? 0)%Z then 6 else s_precision os)%Z in
  let k := order x in
  let sci := ((k <? -4) || (Z.min d (Z.max p 6) <=? k))%Z in
  (sci = false -> forall j, (j <= - p)%Z -> ~ p10 j / 2 <= Rabs (value x) < p10 j) ->
  (f_showpoint os = true -> sci = false -> (k < 0 \/ k + 2 <= p)%Z) ->
  exists l, wr_string d x os = Ok (justified (s_fill os) (s_width os) (f_left os) (text l)) /\
    valid_literal l /\ l_sign l = shown_sign (neg x) (f_showpos os) /\
    (if sci then scientific (f_uppercase os) (value x) l else positional l) /\
    (if f_showpoint os then l_point l = true /\ (hd 0%Z (l_int l) <> 0%Z -> Z.of_nat (length (l_int l ++ l_frac l)) = p)
     else l_point l = nonempty (l_frac l) /\ trimmed (l_frac l)) /\
    rounded_to (p10 (k + 1 - Z.min (d + 1) (if (sci || (0 <=? k)%Z) then p else Z.max (k + 1 + p) 0))) (value x) (literal_value l) /\
    (Z.abs (l_exponent l) <= Z.abs (order x) + 1)%Z.
Proof.
  intros Hd F HE HS HF Hp2 p k sci NB SPC. assert (Hp : (1 <= p <= 9223372036854775807)%Z) by (unfold p; destruct (Z.leb_spec (s_precision os) 0); lia).
  assert (FI : isfinite x = true) by (unfold isfinite; rewrite (proj2 F); reflexivity).
  unfold wr_string. rewrite FI. cbn [negb]. unfold digits_wanted, use_scientific. rewrite HS, HF. cbn [orb negb]. change (os_precision os) with p.
  assert (ES : ((order x <? -4) || (order x >=? Z.min d (Z.max p 6)))%Z = sci).
  { unfold sci, k. rewrite Z.geb_leb. reflexivity. }
  rewrite ES. unfold max_digits10. fold k. set (n := Z.to_nat _).
  assert (Hn : Z.of_nat n = Z.min (d + 1) (if (sci || (0 <=? k)%Z) then p else Z.max (k + 1 + p) 0)).
  { unfold n. destruct Hd. destruct sci; cbn [orb]; [lia|]. rewrite Z.geb_leb. destruct (Z.leb_spec 0 k); lia. }
  clearbody n. rewrite <- Hn.
  destruct sci eqn:Sc.
  - (* scientific *)
    cbn [orb] in Hn. assert (n1 : (1 <= n)%nat) by (destruct Hd; lia).
    destruct (gos_spec d x n Hd F) as [(A & _)|(ds & e & G & D1 & D2 & D3 & D4 & D5 & D6 & D7)]; [lia|]. fold k in G. rewrite G. cbn [bind].
    pose proof (elem_number_digits d Hd) as ND. destruct ds as [|h t]; [cbn [length] in *; destruct Hd; lia|].
    assert (Lt : (Z.of_nat (length t) + 1 <= p)%Z) by (cbn [length] in *; lia).
    rewrite wr_scientific_shape by (auto; lia). set (f := t ++ repeat 0%Z (Z.to_nat (p - Z.of_nat (length t)))).
    inversion D1 as [|? ? Hh Ht]; subst. assert (Df : decs f) by (unfold f; apply decs_app; auto using decs_zeros).
    assert (Sf : strip f = strip t) by apply strip_zeros.
    assert (Be : (Z.abs e <= Z.abs (exp x) + 8)%Z) by (destruct D4 as [|[]]; destruct (order_exp d x Hd F) as [|]; lia).
    assert (V : value x <> 0).
    { intro V. assert (O : order x = 0%Z) by (apply OrderDec.order_special; apply (finite_zero_iff d x Hd F); auto). unfold sci, k in Sc. rewrite O in Sc. destruct Hd. destruct (Z.leb_spec (Z.min d (Z.max p 6)) 0); [lia|discriminate]. }
    assert (Hh0 : h <> 0%Z) by (apply D6; auto; lia).
    destruct (exponent_text_full e (f_uppercase os)) as (es & E1 & E2 & E3 & E4 & E5 & E6); [change (2 ^ 63)%Z with 9223372036854775808%Z in HE; change (10 ^ 20)%Z with 100000000000000000000%Z; lia|].
    assert (GG : exists b g, finish (st [h] f) p (f_showpoint os) true = Ok (DS [h] ++ tail_text b g) /\ decs g /\ (b = false -> g = []) /\ pv [h] g = pv [h] t /\
       (if f_showpoint os then b = true /\ Z.of_nat (1 + length g) = p else b = nonempty g /\ trimmed g)).
    { destruct (f_showpoint os).
      - destruct (finish_showpoint [h] f p) as (j & FJ & FK); [constructor; auto|auto|discriminate|unfold sll_max; lia| |intros [= ->]; congruence|].
        { intros _. rewrite Sf. pose proof (strip_len t). cbn [length]. lia. }
        exists true, (strip f ++ repeat 0%Z j). rewrite FJ. split; [reflexivity|]. split; [apply decs_app; auto using decs_zeros, strip_decs|]. split; [discriminate|].
        split; [rewrite pv_zeros, Sf, pv_strip; reflexivity|]. split; [reflexivity|]. rewrite app_length, repeat_length. rewrite <- FK by (left; exact Hh0). cbn [length]. lia.
      - exists (nonempty (strip f)), (strip f). rewrite finish_trim by (auto; constructor; auto). split; [reflexivity|]. split; [apply strip_decs; auto|].
        split; [destruct (strip f); [auto|discriminate]|]. split; [rewrite Sf, pv_strip; reflexivity|]. split; [reflexivity|]. apply trimmed_strip; auto. }
    destruct GG as (b & g & G1 & G2 & G3 & G4 & G5). rewrite G1. cbn [bind].
    exists (sci_lit (shown_sign (neg x) (f_showpos os)) h b g (f_uppercase os) e es). split; [|split; [|split; [reflexivity|split; [|split; [|split]]]]].
    + rewrite signed_text, sci_text, E1, fill_justified. reflexivity.
    + unfold valid_literal, sci_lit. cbn [l_sign l_int l_point l_frac l_exp]. split; [constructor; auto|]. split; [exact G2|]. split; [discriminate|]. split; [exact G3|].
      intros u s ds [= <- <- <-]. auto.
    + unfold scientific, sci_lit. cbn [l_sign l_int l_point l_frac l_exp length]. split; [reflexivity|]. split; [congruence|].
      exists (e <? 0)%Z, es. auto.
    + unfold sci_lit. cbn [l_sign l_int l_point l_frac l_exp length hd app]. destruct (f_showpoint os); [|exact G5]. destruct G5. split; auto.
    + rewrite sci_value by exact E4. apply (signed_rounded d); auto.
      * apply Rmult_le_pos; [apply IZR_le, dz_nonneg; constructor; auto|left; apply p10_pos].
      * replace (IZR (dz (h :: g)) * p10 (e - Z.of_nat (length g))) with (IZR (dz (h :: t)) * p10 (e + 1 - Z.of_nat (length (h :: t)))); [exact D5|].
        unfold pv in G4. cbn [app] in G4. replace (e - Z.of_nat (length g))%Z with (- Z.of_nat (length g) + e)%Z by lia.
        replace (e + 1 - Z.of_nat (length (h :: t)))%Z with (- Z.of_nat (length t) + e)%Z by (cbn [length]; lia).
        rewrite !p10_add, <- !Rmult_assoc, G4. reflexivity.
    + unfold l_exponent, sci_lit. cbn [l_exp]. rewrite E4. fold k. destruct D4 as [D4|[D4 _]]; fold k in D4; lia.
  - (* positional *)
    cbn [orb] in Hn. specialize (NB eq_refl).
    assert (HnM : (Z.of_nat n <= Z.max (order x + 1 + p) 0)%Z) by (rewrite Hn; fold k; destruct (Z.leb_spec 0 k); lia).
    assert (Hnp : (Z.of_nat n <= p)%Z) by (rewrite Hn; destruct (Z.leb_spec 0 k); lia).
    assert (H0 : n = 0%nat -> (order x + 1 + p <= 0)%Z /\ ~ (p10 (order x + 1) / 2 <= Rabs (value x))).
    { intros ->. fold k. assert (k + 1 + p <= 0)%Z by (destruct Hd; destruct (Z.leb_spec 0 k); lia). split; [auto|]. intro K. apply (NB (k + 1)%Z); [lia|]. split; [auto|].
      unfold k in *. destruct (order_decimal d x Hd F) as [[A B]|A]; [lia|lra]. }
    destruct (positional_digits d x p n Hd F ltac:(lia) HnM H0) as (ds & e & G & D1 & D2 & D3 & D4 & I1 & I2 & I3 & I4 & I5). fold k in G. rewrite G. cbn [bind].
    rewrite wr_fixed_shape by auto.
    assert (Eo : (e = k \/ e = k + 1)%Z) by (destruct D3 as [|[]]; auto).
    assert (GG : exists b g, finish (st (fix_int ds e) (fix_frac ds e p)) p (f_showpoint os) true = Ok (DS (fix_int ds e) ++ tail_text b g) /\ decs g /\ (b = false -> g = []) /\
       pv (fix_int ds e) g = pv (fix_int ds e) (fix_frac ds e p) /\
       (if f_showpoint os then b = true /\ (hd 0%Z (fix_int ds e) <> 0%Z -> Z.of_nat (length (fix_int ds e ++ g)) = p) else b = nonempty g /\ trimmed g)).
    { destruct (f_showpoint os).
      - specialize (SPC eq_refl eq_refl).
        assert (SF : strip (fix_frac ds e p) = strip (if (e <? 0)%Z then repeat 0%Z (Z.to_nat (Z.min (- e - 1) p)) ++ ds else skipn (Z.to_nat (e + 1)) ds)) by (unfold fix_frac; apply strip_zeros).
        destruct (finish_showpoint (fix_int ds e) (fix_frac ds e p) p) as (j & FJ & FK); [auto|auto|auto|unfold sll_max; lia| | |].
        { intros HH. assert (K : (Z.of_nat (length (fix_int ds e)) = e + 1 /\ 0 <= e)%Z).
          { destruct I5 as [I5|[_ I5]]; [|exact I5]. rewrite I5 in HH. cbn in HH. destruct HH; lia. }
          destruct K as [K1 K2]. rewrite Nat2Z.inj_add, K1. rewrite SF. destruct (Z.ltb_spec e 0); [lia|].
          pose proof (strip_len (skipn (Z.to_nat (e + 1)) ds)) as SL. rewrite skipn_length in SL. lia. }
        { intros _. rewrite SF. destruct (Z.ltb_spec e 0).
          - pose proof (sig_len _ _ _ _ (eq_sym (strip_split (repeat 0%Z (Z.to_nat (Z.min (- e - 1) p)) ++ ds)))). lia.
          - rewrite skipn_length. pose proof (strip_len (skipn (Z.to_nat (e + 1)) ds)) as SL. rewrite skipn_length in SL. lia. }
        exists true, (strip (fix_frac ds e p) ++ repeat 0%Z j). rewrite FJ. split; [reflexivity|]. split; [apply decs_app; auto using decs_zeros, strip_decs|]. split; [discriminate|].
        split; [rewrite pv_zeros, pv_strip; reflexivity|]. split; [reflexivity|]. intro HH. rewrite !app_length, repeat_length. specialize (FK (or_introl HH)). lia.
      - exists (nonempty (strip (fix_frac ds e p))), (strip (fix_frac ds e p)). rewrite finish_trim by auto. split; [reflexivity|]. split; [apply strip_decs; auto|].
        split; [destruct (strip _); [auto|discriminate]|]. split; [rewrite pv_strip; reflexivity|]. split; [reflexivity|]. apply trimmed_strip; auto. }
    destruct GG as (b & g & G1 & G2 & G3 & G4 & G5). rewrite G1. cbn [bind].
    set (L := fix_int ds e) in *. set (R := fix_frac ds e p) in *.
    exists (pos_lit (shown_sign (neg x) (f_showpos os)) L b g). split; [|split; [|split; [reflexivity|split; [|split; [|split]]]]].
    + rewrite signed_text, pos_text, fill_justified. reflexivity.
    + unfold valid_literal, pos_lit. cbn [l_sign l_int l_point l_frac l_exp]. split; [auto|]. split; [auto|]. split; [destruct L; [congruence|discriminate]|]. split; [exact G3|discriminate].
    + unfold positional, pos_lit. cbn [l_int l_exp]. split; [reflexivity|]. destruct I5 as [|[]]; auto.
    + exact G5.
    + rewrite pos_value, G4. apply (signed_rounded d); auto.
      unfold pv. apply Rmult_le_pos; [apply IZR_le, dz_nonneg, decs_app; auto|left; apply p10_pos].
    + unfold l_exponent, pos_lit. cbn [l_exp]. lia.
Qed.
