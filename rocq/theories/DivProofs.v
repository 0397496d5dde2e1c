(** * Division by a small integer. *)

From Coq Require Import ZArith List Bool Reals Lra Lia.
From Verif Require Import Model Spec Limbs Value AddProofs MulProofs MulValue MulCor IntProofs ModelDiv.
Import ListNotations.
Open Scope Z_scope.
Ltac Zify.zify_post_hook ::= Z.div_mod_to_equations.

Lemma nth_upd_other_skip (l : list Z) : forall i x, skipn (S i) (upd i x l) = skipn (S i) l.
Proof. induction l as [|a l IH]; intros [|i] x; simpl; auto. apply IH. Qed.

Lemma nth_upd_other_first (l : list Z) : forall i x, firstn i (upd i x l) = firstn i l.
Proof. induction l as [|a l IH]; intros [|i] x; simpl; auto. f_equal. apply IH. Qed.

(* the list left behind by the quotient loop when its first limb vanishes *)
Lemma div_shape (q rest : list Z) z : (3 <= length q)%nat -> limb q 0 = 0 ->
  let p := length q in
  let l := q ++ rest in
  let l' := upd (p - 1) z (firstn (p - 2) (skipn 1 l) ++ skipn (p - 2) l) in
  exists m a b, q = 0 :: m ++ [a; b] /\ length m = (p - 3)%nat /\ l' = m ++ [a; a; z] ++ rest.
Proof.
  intros Hp H0. destruct q as [|q0 q']; [simpl in Hp; lia|]. unfold limb in H0; simpl in H0; subst q0.
  simpl in Hp.
  assert (exists m a b, q' = m ++ [a; b]) as (m & a & b & ->).
  { exists (firstn (length q' - 2) q').
    assert (L : length (skipn (length q' - 2) q') = 2%nat) by (rewrite skipn_length; lia).
    destruct (skipn (length q' - 2) q') as [|a [|b [|]]] eqn:E; try discriminate.
    exists a, b. rewrite <- E. symmetry. apply firstn_skipn. }
  exists m, a, b. rewrite app_length in Hp. simpl in Hp.
  cbn [length]. rewrite app_length. cbn [length].
  replace (S (length m + 2) - 3)%nat with (length m) by lia.
  replace (S (length m + 2) - 2)%nat with (S (length m)) by lia.
  replace (S (length m + 2) - 1)%nat with (S (S (length m))) by lia.
  split; [reflexivity|]. split; [reflexivity|]. simpl skipn.
  replace (firstn (S (length m)) ((m ++ [a; b]) ++ rest)) with (m ++ [a]).
  2: { rewrite <- app_assoc. rewrite firstn_app. rewrite firstn_all2 by lia. 
       replace (S (length m) - length m)%nat with 1%nat by lia. reflexivity. }
  replace (skipn (length m) ((m ++ [a; b]) ++ rest)) with (a :: b :: rest).
  2: { rewrite <- app_assoc, skipn_app, skipn_all, Nat.sub_diag. reflexivity. }
  clear. induction m as [|x m IH]; [reflexivity|]. simpl. f_equal. exact IH.
Qed.

Lemma div_small_spec d x n : valid_digits d -> finite d x -> limb (data x) 0 <> 0 -> 2 <= n < 100000000 ->
  3 <= prec x ->
  let r := div_small x n in
  finite d r /\ limb (data r) 0 <> 0 /\ prec r = prec x /\ neg r = neg x /\
  (exp r = exp x \/ exp r = exp x - 8) /\
  (Rabs (IZR n * mag d (data r) (exp r) - mag d (data x) (exp x)) <= powerRZ 10 (24 - 8 * prec x) * mag d (data x) (exp x))%R /\
  (exp r = exp x -> full d x ->
   (IZR n * mag d (data r) (exp r) <= mag d (data x) (exp x) < IZR n * (mag d (data r) (exp r) + ulp d (exp r)))%R).
Proof.
  intros Hd [Wx Cx] Zx Hn Hp3.
  pose proof (elem_number_bounds d Hd) as HN. pose proof (Nn_Z d Hd) as HNn.
  pose proof (wf_prec _ _ Wx) as Px. pose proof (wf_limbs _ _ Wx) as Lx. pose proof (Nn_len d x Hd Wx) as Nx.
  set (p := Z.to_nat (prec x)) in *.
  assert (Hp : (3 <= p <= Nn d)%nat) by (unfold p; lia).
  unfold div_small. fold p.
  destruct (div_loop_n (firstn p (data x)) 0 n) as [q prev] eqn:E.
  destruct (div_loop_n_spec n (firstn p (data x)) (limbs_firstn _ _ Lx) ltac:(unfold mask; lia) 0 q prev ltac:(lia) E) as (Hmv & Hq & Hlq & Hpr).
  rewrite firstn_length, Nat.min_l in Hmv, Hlq by lia. rewrite Z.mul_0_l, Z.add_0_r in Hmv.
  set (U := mv (firstn p (data x))) in *. set (t := Bp (Nn d - p)). assert (Ht : 0 < t) by apply Bp_pos.
  assert (Hlead : Bp (p - 1) <= U).
  { unfold U. assert (Hl0 : limb (firstn p (data x)) 0 <> 0) by (rewrite firstn_limb0; auto; lia).
    apply mv_ge_lead in Hl0. rewrite firstn_length, Nat.min_l in Hl0 by lia. exact Hl0. apply limbs_firstn; auto.
    destruct (data x); [simpl in Nx; lia|]. destruct p; [lia|]. discriminate. }
  set (lx := mv (skipn p (data x))).
  assert (Hlx : 0 <= lx < t).
  { unfold lx, t. pose proof (mv_bound _ (limbs_skipn p _ Lx)) as B. rewrite skipn_length, Nx in B. exact B. }
  assert (Emx : mv (data x) = U * t + lx) by (rewrite (mv_split p (data x)) by lia; rewrite Nx; reflexivity).
  assert (HB1 : Bp (p - 1) = 100000000 * Bp (p - 2)) by (change 100000000 with mask; rewrite <- Bp_S; f_equal; lia).
  assert (HB2 : Bp (p - 2) = 100000000 * Bp (p - 3)) by (change 100000000 with mask; rewrite <- Bp_S; f_equal; lia).
  pose proof (Bp_pos (p - 3)) as HB3.
  set (Q := mv q) in *. pose proof (mv_bound q Hq) as Bq. fold Q in Bq.
  set (e := exp x). pose proof (ulp_pos d e) as Hulp.
  assert (HQ : Bp (p - 2) <= Q) by (clear - Hmv Hpr Hlead HB1 HB2 HB3 Hn; nia).
  assert (Htx : (IZR (Bp (p - 3) * t) * p10 (24 - 8 * prec x) = IZR t)%R).
  { unfold t. rewrite mult_IZR, <- !p10_Bp, <- !p10_add. f_equal. lia. }
  pose proof (p10_pos (24 - 8 * prec x)) as Hpp.
  assert (Hllen : length (q ++ skipn p (data x)) = Nn d) by (rewrite app_length, skipn_length; lia).
  (* the relative error from an absolute one *)
  assert (Rel : forall D, Z.abs D <= n * Bp 2 * t -> (Rabs (IZR D) <= p10 (24 - 8 * prec x) * IZR ((U * t + lx) * 100000000))%R).
  { intros D HD. rewrite <- abs_IZR. apply IZR_le in HD.
    assert (G : (n * Bp 2) * (Bp (p - 3) * t) <= (U * t + lx) * 100000000).
    { change (Bp 2) with 10000000000000000.
      assert (n * (100000000 * Bp (p - 3)) <= U) by (clear - Hmv Hpr HQ HB2 Hn; nia).
      clear - H Hlx Ht. nia. }
    apply IZR_le in G. rewrite (mult_IZR (n * Bp 2) (Bp (p - 3) * t)) in G.
    rewrite mult_IZR, <- Htx in HD.
    apply (Rle_trans _ _ _ HD).
    apply Rle_trans with (p10 (24 - 8 * prec x) * (IZR (n * Bp 2) * IZR (Bp (p - 3) * t)))%R; [right; ring|].
    apply Rmult_le_compat_l; [lra|exact G]. }
  destruct (Z.eqb_spec (limb (q ++ skipn p (data x)) 0) 0) as [Ez|Ez]; cbn [data exp neg cls prec].
  - (* leading zero *)
    assert (Ez' : limb q 0 = 0) by (unfold limb in *; rewrite app_nth1 in Ez by lia; exact Ez).
    destruct (div_shape q (skipn p (data x)) (u32 (u64 (prev * mask) / n)) ltac:(lia) Ez') as (m & a & b & Eq & Elm & El).
    rewrite Hlq in El. cbv zeta in El.
    rewrite El. clear El.
    assert (Hz : u32 (u64 (prev * mask) / n) = prev * 100000000 / n).
    { rewrite u64_small by (unfold mask; lia). unfold mask. apply u32_small.
      assert (0 <= prev * 100000000 / n < 100000000); [|lia]. split; [apply Z.div_pos; lia|]. apply Z.div_lt_upper_bound; lia. }
    rewrite Hz. set (z := prev * 100000000 / n). 
    assert (Hzb : 0 <= z < 100000000) by (unfold z; split; [apply Z.div_pos; lia|]; apply Z.div_lt_upper_bound; lia).
    assert (Hzm : 0 <= prev * 100000000 - n * z < n).
    { unfold z. pose proof (Z_div_mod_eq_full (prev * 100000000) n). pose proof (Z.mod_pos_bound (prev * 100000000) n ltac:(lia)). lia. }
    clearbody z. clear Hz.
    assert (Hm : limbs m /\ is_limb a /\ is_limb b).
    { rewrite Eq in Hq. apply Forall_cons_iff in Hq. destruct Hq as [_ Hq]. apply Forall_app in Hq.
      destruct Hq as [Hm Hab]. apply Forall_cons_iff in Hab. destruct Hab as [Ha Hb]. apply Forall_cons_iff in Hb. tauto. }
    destruct Hm as (Hm & Ha & Hb).
    assert (EQ : Q = mv m * Bp 2 + a * 100000000 + b).
    { unfold Q. rewrite Eq, mv_cons, mv_app. change (mv [a; b]) with (a * 100000000 + (b * 1 + 0)). cbn [length]. lia. }
    assert (Er : mv (m ++ [a; a; z] ++ skipn p (data x)) = (Q * 100000000 + z + (a - b) * 100000000) * t + lx).
    { rewrite !mv_app. rewrite app_length, skipn_length, Nx. cbn [length].
      replace (3 + (Nn d - p))%nat with (2 + 1 + (Nn d - p))%nat by lia. rewrite !Bp_add. fold t lx.
      change (mv [a; a; z]) with (a * 10000000000000000 + (a * 100000000 + (z * 1 + 0))).
      rewrite EQ. change (Bp 1) with 100000000. change (Bp 2) with 10000000000000000. ring. }
    assert (Hl' : limbs (m ++ [a; a; z] ++ skipn p (data x))).
    { apply limbs_app; auto. apply limbs_app; [|auto using limbs_skipn]. repeat constructor; unfold is_limb in *; lia. }
    assert (Hlen' : length (m ++ [a; a; z] ++ skipn p (data x)) = Nn d).
    { rewrite !app_length, skipn_length. cbn [length]. lia. }
    assert (Z0 : limb (m ++ [a; a; z] ++ skipn p (data x)) 0 <> 0).
    { apply lead_nonzero; auto. rewrite Hlen', Er.
      assert (Bp (Nn d - 1) = 10000000000000000 * Bp (p - 3) * t).
      { unfold t. change 10000000000000000 with (Bp 2). rewrite <- !Bp_add. f_equal. lia. }
      rewrite H.
      assert (100000000 * Bp (p - 3) <= Q + (a - b)).
      { pose proof (Bp_pos (p - 4)) as X4. destruct (Nat.eq_dec p 3) as [E3|E3].
        - assert (X2 : Bp (p - 2) = 100000000) by (replace (p - 2)%nat with 1%nat by lia; reflexivity).
          assert (X3 : Bp (p - 3) = 1) by (replace (p - 3)%nat with O by lia; reflexivity).
          destruct m; [|exfalso; cbn [length] in Elm; lia].
          rewrite mv_nil in EQ. unfold is_limb in Ha, Hb. rewrite X2 in HQ. rewrite X3. clear - EQ HQ Ha Hb. lia.
        - assert (Bp (p - 3) = 100000000 * Bp (p - 4)) by (change 100000000 with mask; rewrite <- Bp_S; f_equal; lia).
          assert (mv m * Bp 2 >= 10000000000000000 * Bp (p - 4)).
          { assert (Q < (mv m + 1) * 10000000000000000).
            { rewrite EQ. change (Bp 2) with 10000000000000000. unfold is_limb in *. lia. }
            change (Bp 2) with 10000000000000000. rewrite HB2, H0 in HQ. nia. }
          rewrite EQ, H0. unfold is_limb in *.
          assert (b < 100000000) by lia. assert (0 <= a) by lia. lia. }
      clear - H0 Hzb Hlx Ht. nia. }
    split.
    { split; [|exact Cx]. constructor; cbn [data exp neg cls prec]; auto; try apply Wx.
      - rewrite Hlen'. exact HNn.
      - pose proof (wf_exp _ _ Wx). fold e in H. unfold e. lia.
      - intros _ H. exfalso. apply Z0. exact H.
      - congruence. }
    split; [exact Z0|]. split; [reflexivity|]. split; [reflexivity|]. split; [right; reflexivity|].
    fold e. split.
    + unfold mag. rewrite Er, Emx.
      assert (Eu : ulp d e = (100000000 * ulp d (e - 8))%R).
      { replace e with (e - 8 + 8) at 1 by lia. rewrite ulp_shift8. reflexivity. }
      rewrite Eu. pose proof (ulp_pos d (e - 8)) as Hu8.
      replace (IZR n * (IZR ((Q * 100000000 + z + (a - b) * 100000000) * t + lx) * ulp d (e - 8)) -
         IZR (U * t + lx) * (100000000 * ulp d (e - 8)))%R with
        (IZR (n * ((Q * 100000000 + z + (a - b) * 100000000) * t + lx) - (U * t + lx) * 100000000) * ulp d (e - 8))%R.
      2: { rewrite minus_IZR, (mult_IZR n), (mult_IZR (U * t + lx)). ring. }
      rewrite Rabs_mult, (Rabs_pos_eq (ulp d (e - 8))) by lra.
      replace (p10 (24 - 8 * prec x) * (IZR (U * t + lx) * (100000000 * ulp d (e - 8))))%R with
        (p10 (24 - 8 * prec x) * IZR ((U * t + lx) * 100000000) * ulp d (e - 8))%R by (rewrite mult_IZR; ring).
      apply Rmult_le_compat_r; [lra|]. apply Rel.
      rewrite Hmv.
      replace (n * ((Q * 100000000 + z + (a - b) * 100000000) * t + lx) - ((n * Q + prev) * t + lx) * 100000000)
        with ((n * (a - b) * 100000000 - (prev * 100000000 - n * z)) * t - (100000000 - n) * lx) by ring.
      change (Bp 2) with 10000000000000000. unfold is_limb in *.
      set (rem := prev * 100000000 - n * z) in *.
      assert (- 99999999 <= a - b <= 99999999) by lia. set (ab := a - b) in *. clearbody ab rem.
      clear - H Hzm Hlx Ht Hn.
      assert (n * (-99999999) <= n * ab <= n * 99999999) by nia.
      assert (0 <= (100000000 - n) * lx <= 100000000 * t) by nia.
      assert (Z.abs (n * ab * 100000000 - rem) <= n * 9999999900000000 + n) by lia.
      apply Z.abs_le. assert (- (n * 9999999900000000 + n) * t <= (n * ab * 100000000 - rem) * t <= (n * 9999999900000000 + n) * t) by nia.
      nia.
    + intro Habs. exfalso. lia.
  - (* no leading zero *)
    assert (Ez' : limb q 0 <> 0) by (unfold limb in *; rewrite app_nth1 in Ez by lia; exact Ez).
    assert (Hl' : limbs (q ++ skipn p (data x))) by (apply limbs_app; auto using limbs_skipn).
    assert (Er : mv (q ++ skipn p (data x)) = Q * t + lx).
    { rewrite mv_app, skipn_length, Nx. reflexivity. }
    split.
    { split; [|exact Cx]. constructor; cbn [data exp neg cls prec]; auto; try apply Wx.
      - rewrite Hllen. exact HNn.
      - intros _ H. exfalso. apply Ez. exact H.
      - congruence. }
    split; [exact Ez|]. split; [reflexivity|]. split; [reflexivity|]. split; [left; reflexivity|].
    fold e. unfold mag. rewrite Er, Emx. split.
    + replace (IZR n * (IZR (Q * t + lx) * ulp d e) - IZR (U * t + lx) * ulp d e)%R with
        (IZR (n * (Q * t + lx) - (U * t + lx)) * ulp d e)%R by (rewrite minus_IZR, (mult_IZR n); ring).
      rewrite Rabs_mult, (Rabs_pos_eq (ulp d e)) by lra. rewrite <- Rmult_assoc.
      apply Rmult_le_compat_r; [lra|].
      assert (HR : (Rabs (IZR ((n * (Q * t + lx) - (U * t + lx)) * 100000000)) <= p10 (24 - 8 * prec x) * IZR ((U * t + lx) * 100000000))%R).
      { apply Rel. rewrite Hmv. change (Bp 2) with 10000000000000000.
        replace ((n * (Q * t + lx) - ((n * Q + prev) * t + lx)) * 100000000) with (((n - 1) * lx - prev * t) * 100000000) by ring.
        assert (0 <= (n - 1) * lx <= n * t) by (clear - Hlx Hn Ht; nia).
        assert (0 <= prev * t <= n * t) by (clear - Hpr Ht; nia). clear - H H0. lia. }
      rewrite !mult_IZR, Rabs_mult in HR. rewrite (Rabs_pos_eq 100000000) in HR by lra. lra.
    + intros _ Fx. assert (Ep : p = Nn d) by (unfold p, full in *; lia).
      assert (Et : t = 1) by (unfold t; rewrite Ep, Nat.sub_diag; reflexivity).
      rewrite Et in *. assert (lx = 0) by lia. rewrite H, !Z.mul_1_r, !Z.add_0_r.
      assert (G1 : (IZR n * IZR Q <= IZR U)%R) by (rewrite <- mult_IZR; apply IZR_le; lia).
      assert (G2 : (IZR U < IZR n * (IZR Q + 1))%R) by (rewrite <- plus_IZR, <- mult_IZR; apply IZR_lt; lia).
      clear - G1 G2 Hulp. nra.
Qed.

Lemma div_small_exp d x n : finite d x -> 2 <= n < 100000000 -> 1 <= prec x -> n <= limb (data x) 0 -> exp (div_small x n) = exp x.
Proof.
  intros [W _] Hn Hp H. unfold div_small. set (p := Z.to_nat (prec x)). assert (1 <= p)%nat by (unfold p; lia).
  pose proof (limb_bound (data x) 0 (wf_limbs _ _ W)) as B. unfold is_limb in B.
  destruct (data x) as [|a l]; [unfold limb in H; simpl in H; lia|]. unfold limb in H, B. cbn [nth] in H, B.
  destruct p as [|p]; [lia|]. cbn [firstn div_loop_n].
  destruct (div_loop_n _ _ n) as [r pr]. unfold limb. cbn [app nth].
  rewrite Z.mul_0_l. change (u64 0) with 0. rewrite Z.add_0_r, u64_small by lia.
  assert (1 <= a / n <= a) by (split; [apply Z.div_le_lower_bound; lia|apply Z.div_le_upper_bound; nia]).
  rewrite u32_small by lia. destruct (Z.eqb_spec (a / n) 0); [lia|]. reflexivity.
Qed.
