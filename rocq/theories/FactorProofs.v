(** * Trial division is correct. *)

From Coq Require Import ZArith List Bool Znumtheory Sorted Lia Setoid.
From Verif Require Import Model ModelDiv ModelPrime SpecPrime PrimeProofs.
Import ListNotations.
Open Scope Z_scope.

Lemma ipf_spec np p : 0 <= np < 4294967296 -> 2 <= p ->
  is_prime_factor np p = if Zdivide_dec p np then Some (np / p) else None.
Proof.
  intros Hn Hp. unfold is_prime_factor, u32. cbv zeta.
  pose proof (Z.div_mod np p ltac:(lia)) as E. pose proof (Z.mod_pos_bound np p ltac:(lia)) as B.
  assert (0 <= np / p) by (apply Z.div_pos; lia).
  rewrite (Z.mod_small (np / p * p)) by nia. replace (np - np / p * p) with (np mod p) by nia. rewrite (Z.mod_small (np mod p)) by lia.
  destruct (Z.eqb_spec (np mod p) 0); destruct (Zdivide_dec p np) as [D|D]; auto.
  - exfalso. apply D. apply Zmod_divide; lia.
  - exfalso. apply Zdivide_mod in D. lia.
Qed.

Lemma divide_out_spec p : 2 <= p -> forall fuel np y, 1 <= np < 2 ^ Z.of_nat fuel -> np < 4294967296 -> 1 <= y <= 1000 - Z.of_nat fuel ->
  exists np' k, divide_out fuel np p y = Some (np', y + k) /\ 0 <= k /\ np = np' * p ^ k /\ ~ (p | np') /\ 1 <= np'.
Proof.
  intros Hp. induction fuel; intros np y Hn Hn2 Hy; [change (2 ^ Z.of_nat 0) with 1 in Hn; lia|].
  cbn [divide_out]. rewrite ipf_spec by lia. destruct (Zdivide_dec p np) as [D|D].
  - destruct D as [c D]. assert (C : np / p = c) by (subst; apply Z.div_mul; lia). rewrite C.
    assert (Hc : 1 <= c) by nia. assert (Hc2 : 2 * c <= np) by nia.
    unfold u32. rewrite Z.mod_small by lia.
    rewrite Nat2Z.inj_succ, Z.pow_succ_r in Hn by lia.
    destruct (IHfuel c (y + 1)) as (np' & k & E & K & P & N & Q); try lia.
    exists np', (k + 1). replace (y + (k + 1)) with (y + 1 + k) by lia. split; auto. split; [lia|]. split; [|auto].
    rewrite D, P, Z.pow_add_r, Z.pow_1_r by lia. ring.
  - exists np, 0. rewrite Z.add_0_r. repeat split; auto; lia.
Qed.

Lemma product_app l1 l2 : product (l1 ++ l2) = product l1 * product l2.
Proof. induction l1 as [|[p k] t IH]; cbn [app product]; [lia|]. rewrite IH. ring. Qed.

Lemma prime_divisor m : 2 <= m -> exists q, prime q /\ (q | m).
Proof.
  intro H0. assert (G : 0 <= m) by lia. revert m G H0.
  apply (Z_lt_induction (fun m => 2 <= m -> exists q, prime q /\ (q | m))). intros m IH Hm.
  destruct (prime_dec m) as [P|P]; [exists m; split; auto; apply Z.divide_refl|].
  destruct (not_prime_divide m ltac:(lia) P) as (n & Hn & D). destruct (IH n) as (q & Q1 & Q2); try lia.
  exists q. split; auto. apply Z.divide_trans with n; auto.
Qed.

Lemma sorted_snoc (l : list Z) x : StronglySorted Z.lt l -> (forall y, In y l -> y < x) -> StronglySorted Z.lt (l ++ [x]).
Proof.
  induction 1; intro B; cbn [app].
  - constructor; constructor.
  - constructor; [apply IHStronglySorted; intros; apply B; right; auto|].
    rewrite Forall_forall in *. intros z I. apply in_app_or in I. destruct I as [I|[<-|[]]]; auto. apply B. left; auto.
Qed.

(** the loop with the primes [l] left, [np] left and the factors [pf] found *)
Record inv (n : Z) (l : list Z) (np : Z) (pf : list (Z * Z)) : Prop := {
  i_np : 1 <= np;
  i_n : product pf * np = n;
  i_sorted : StronglySorted Z.lt (map fst pf);
  i_pf : forall p k, In (p, k) pf -> prime p /\ 1 <= k;
  i_lt : forall p q, In p (map fst pf) -> In q l -> p < q;
  i_div : forall q, prime q -> (q | np) -> In q l \/ 65581 < q;
  i_lsorted : StronglySorted Z.lt l;
  i_l : forall q, In q l -> prime q /\ q <= 65581;
  i_last : In 65581 l
}.

Lemma product_pos pf : (forall p k, In (p, k) pf -> prime p /\ 1 <= k) -> 1 <= product pf.
Proof.
  induction pf as [|[p k] t IH]; intro H; cbn [product]; [lia|].
  destruct (H p k) as [P K]; [left; auto|]. pose proof (prime_ge_2 p P).
  assert (1 <= product t) by (apply IH; intros; apply H; right; auto).
  assert (0 < p ^ k) by (apply Z.pow_pos_nonneg; lia). nia.
Qed.

Lemma np_le n l np pf : inv n l np pf -> np <= n.
Proof. intro I. pose proof (product_pos pf (i_pf _ _ _ _ I)). pose proof (i_np _ _ _ _ I). rewrite <- (i_n _ _ _ _ I). nia. Qed.

(** the part of one round that takes out the prime [p] *)
Lemma take_out n p rest np pf : n < 4294967296 -> inv n (p :: rest) np pf ->
  exists np' pf', match is_prime_factor np p with
          | Some q =>
              match divide_out 40 q p 1 with
              | Some (np', y) => Some (np', pf ++ [(p, y)])
              | None => None
              end
          | None => Some (np, pf)
          end = Some (np', pf') /\
    1 <= np' /\ product pf' * np' = n /\ StronglySorted Z.lt (map fst pf') /\ (forall q k, In (q, k) pf' -> prime q /\ 1 <= k) /\
    (forall q, In q (map fst pf') -> q <= p) /\ ~ (p | np') /\ (forall q, prime q -> (q | np') -> In q rest \/ 65581 < q).
Proof.
  intros Hn I. pose proof (np_le _ _ _ _ I) as Le. destruct I as [I1 I2 I3 I4 I5 I6 I7 I8 I9].
  destruct (I8 p (or_introl eq_refl)) as [Pp Bp]. pose proof (prime_ge_2 p Pp) as P2.
  assert (Lt : forall q, In q (map fst pf) -> q < p) by (intros q Q; apply I5; auto; left; auto).
  rewrite ipf_spec by lia. destruct (Zdivide_dec p np) as [[c D]|D].
  - assert (C : np / p = c) by (subst np; apply Z.div_mul; lia). rewrite C.
    destruct (divide_out_spec p P2 40 c 1) as (np' & k & E & K & P & N & Q).
    { change (2 ^ Z.of_nat 40) with 1099511627776. nia. } { nia. } { cbn; lia. }
    rewrite E. eexists. eexists. split; [reflexivity|]. split; [auto|].
    assert (NP : np = np' * p ^ (1 + k)) by (rewrite D, P, Z.pow_add_r, Z.pow_1_r by lia; ring).
    split. { rewrite product_app. cbn [product]. rewrite <- I2, NP. ring. }
    split. { rewrite map_app. cbn [map fst]. apply sorted_snoc; auto. }
    split. { intros q j J. apply in_app_or in J. destruct J as [J|[J|[]]]; auto. assert (q = p) by congruence. assert (j = 1 + k) by congruence. subst q j. split; [auto|lia]. }
    split. { intros q J. rewrite map_app in J. apply in_app_or in J. destruct J as [J|[J|[]]]; [apply Lt in J; lia|cbn in J; lia]. }
    split; auto.
    intros q Pq Dq. destruct (I6 q Pq) as [[<-|J]|J]; auto.
    + rewrite NP. apply Z.divide_mul_l; auto.
    + contradiction.
  - exists np, pf. split; auto. split; auto. split; auto. split; auto. split; auto. split; [intros q J; apply Lt in J; lia|]. split; auto.
    intros q Pq Dq. destruct (I6 q Pq Dq) as [[<-|J]|J]; auto. contradiction.
Qed.

Lemma factors_loop_spec n sqrt_n : 2 <= n < 4294967296 -> (forall p, 2 <= p <= 65581 -> p * p + p + 1 <= n -> p < sqrt_n) ->
  forall l np pf, inv n l np pf ->
  exists r f, factors_loop l sqrt_n np pf = Some r /\ factorization n f /\ (r = f \/ r = f ++ [(1, 1)]).
Proof.
  intros Hn Hs. induction l as [|p rest IH]; intros np pf I; [destruct (i_last _ _ _ _ I)|].
  cbn [factors_loop]. destruct (i_l _ _ _ _ I p (or_introl eq_refl)) as [Pp Bp]. pose proof (prime_ge_2 p Pp) as P2.
  destruct (Z.eqb_spec p 0); [lia|].
  destruct (take_out n p rest np pf ltac:(lia) I) as (np' & pf' & E & N1 & N2 & N3 & N4 & N5 & N6 & N7). rewrite E.
  pose proof (Z.div_mod np' p ltac:(lia)) as DM. pose proof (Z.mod_pos_bound np' p ltac:(lia)) as MB.
  assert (Rp : forall q, In q rest -> p < q).
  { intros q J. pose proof (i_lsorted _ _ _ _ I) as S. inversion S; subst. rewrite Forall_forall in H2. auto. }
  destruct (Z.leb_spec (np' / p) p) as [L|L].
  - exists (pf' ++ [(np', 1)]). destruct (Z.eq_dec np' 1) as [NE|NE].
    + exists pf'. split; [reflexivity|]. split; [split; [auto|split; [auto|lia]]|]. right. rewrite NE. auto.
    + assert (Big : forall q, prime q -> (q | np') -> p < q).
      { intros q Pq Dq. destruct (N7 q Pq Dq); [auto|lia]. }
      assert (PR : prime np').
      { destruct (prime_dec np') as [|NP]; auto. exfalso. destruct (small_divisor np' ltac:(lia) NP) as (c & C1 & C2 & C3).
        destruct (prime_divisor c C1) as (q & Q1 & Q2). assert (p < q) by (apply Big; auto; apply Z.divide_trans with c; auto).
        assert (q <= c) by (apply Z.divide_pos_le; auto; lia). nia. }
      exists (pf' ++ [(np', 1)]). split; [reflexivity|]. split; [|left; auto]. split; [|split].
      * rewrite map_app. cbn [map fst]. apply sorted_snoc; auto. intros y J. apply N5 in J. specialize (Big np' PR (Z.divide_refl _)). lia.
      * intros q k J. apply in_app_or in J. destruct J as [J|[J|[]]]; auto. injection J as <- <-. split; [auto|lia].
      * rewrite product_app. cbn [product]. rewrite Z.pow_1_r. lia.
  - assert (NN : np' <= n).
    { pose proof (product_pos pf' N4). nia. }
    assert (NE : np' <> p * p + p) by (intro Q; apply N6; exists (p + 1); lia).
    assert (SQ : p < sqrt_n) by (apply Hs; [lia|nia]).
    destruct (Z.eqb_spec np' 1) as [Q|_]; [exfalso; subst np'; nia|]. cbn [orb]. destruct (Z.geb_spec p sqrt_n); [lia|].
    apply IH. assert (PL : p <> 65581) by (intros ->; nia).
    constructor; auto.
    + intros q r J K. apply N5 in J. specialize (Rp r K). lia.
    + pose proof (i_lsorted _ _ _ _ I) as S. inversion S; auto.
    + intros q J. apply (i_l _ _ _ _ I). right; auto.
    + destruct (i_last _ _ _ _ I); auto; congruence.
Qed.

Lemma inv_start n data : 2 <= n -> good_table data -> inv n data n [].
Proof.
  intros Hn [S Q]. constructor; auto; try (cbn; intros; contradiction || lia).
  - cbn [product]. lia.
  - constructor.
  - intros q P D. destruct (Z_le_dec q 65581); [left; apply Q; auto|right; lia].
  - intros q J. apply Q; auto.
  - apply Q. split; [apply prime_65581|lia].
Qed.

(** ** The table *)

Lemma find_from_spec x : forall l, StronglySorted Z.lt l -> In x l ->
  StronglySorted Z.lt (find_from x l) /\ forall p, In p (find_from x l) <-> In p l /\ x <= p.
Proof.
  induction l as [|y t IH]; intros S J; [destruct J|]. cbn [find_from]. inversion S; subst. rewrite Forall_forall in H2.
  destruct (Z.eqb_spec y x).
  - subst. split; auto. intro p. split; [|intros [? ?]; auto]. intros K. split; auto. destruct K as [<-|K]; [lia|]. apply H2 in K. lia.
  - destruct J as [J|J]; [congruence|]. destruct (IH H1 J) as [A B]. split; auto. intro p. rewrite B. split.
    + intros [? ?]. split; auto. right; auto.
    + intros [[<-|K] L]; [|auto]. apply H2 in J. lia.
Qed.

Lemma factor_table_spec data : forall count i next j, 
  StronglySorted Z.lt next -> (forall p, In p next <-> prime p /\ i <= p <= 65581) -> i + Z.of_nat count <= 65581 ->
  (j < count)%nat ->
  nth j (factor_table count data i next) None =
    if prime_dec (i + Z.of_nat j) then Some [(i + Z.of_nat j, 1)] else factors data (i + Z.of_nat j).
Proof.
  induction count; intros i next j SS Q L J; [lia|]. cbn [factor_table].
  destruct next as [|p next'].
  { exfalso. assert (In 65581 []) as []. apply Q. split; [apply prime_65581|lia]. }
  inversion SS as [|? ? S' F]; subst. rewrite Forall_forall in F.
  assert (Pp : prime p /\ i <= p <= 65581) by (apply Q; left; auto).
  destruct (Z.eqb_spec i p) as [->|NE].
  - destruct j; cbn [nth].
    + rewrite Z.add_0_r. destruct (prime_dec p) as [|NP]; auto. destruct Pp; contradiction.
    + rewrite IHcount; auto; try lia.
      * replace (p + 1 + Z.of_nat j) with (p + Z.of_nat (S j)) by lia. reflexivity.
      * intro q. split.
        { intro K. pose proof (F q K). assert (K' : In q (p :: next')) by (right; auto). apply Q in K'. split; [apply K'|lia]. }
        { intros [K1 K2]. assert (K' : In q (p :: next')) by (apply Q; split; auto; lia). destruct K' as [<-|]; [lia|auto]. }
  - assert (NPi : ~ prime i).
    { intro K. assert (K' : In i (p :: next')) by (apply Q; split; auto; lia). destruct K' as [K'|K']; [congruence|]. apply F in K'. lia. }
    destruct j; cbn [nth].
    + rewrite Z.add_0_r. destruct (prime_dec i) as [|NP]; auto. contradiction.
    + rewrite IHcount; auto; try lia.
      * replace (i + 1 + Z.of_nat j) with (i + Z.of_nat (S j)) by lia. reflexivity.
      * intro q. rewrite Q. split; intros [K1 K2]; (split; [auto|]); try lia. assert (q <> i) by congruence. lia.
Qed.

Lemma prime_5 : prime 5.
Proof. destruct (prime_dec 5) as [|N]; auto. exfalso. destruct (small_divisor 5 ltac:(lia) N) as (p & A & B & [c C]). assert (p = 2) by nia. subst. lia. Qed.

Lemma not_prime_4 : ~ prime 4.
Proof. intro P. apply (prime_no_divisor 4 2 P); try lia. exists 2; lia. Qed.

Lemma prime_factorization p : prime p -> factorization p [(p, 1)].
Proof.
  intro P. split; [constructor; constructor|]. split.
  - intros q k [J|[]]. injection J as <- <-. split; [auto|lia].
  - cbn [product]. rewrite Z.pow_1_r. lia.
Qed.
