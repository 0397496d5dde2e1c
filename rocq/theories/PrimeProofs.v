(** * The sieve and the factorisation are correct. *)

From Coq Require Import ZArith List Bool FMapPositive Znumtheory Sorted Lia Setoid.
From Verif Require Import Model ModelPrime SpecPrime.
Import ListNotations.
Open Scope Z_scope.

(** ** Bit sets *)

Lemma is_set_false j : is_set all_false j = false.
Proof. unfold is_set, all_false. rewrite PositiveMap.mem_find, PositiveMap.gempty. reflexivity. Qed.

Lemma is_set_true v j k : 0 <= j -> 0 <= k -> is_set (set_true v j) k = ((k =? j) || is_set v k)%bool.
Proof.
  intros Hj Hk. unfold is_set, set_true. rewrite !PositiveMap.mem_find. destruct (Z.eqb_spec k j).
  - subst. rewrite PositiveMap.gss. reflexivity.
  - rewrite PositiveMap.gso by lia. reflexivity.
Qed.

(** ** The inner loop *)

Lemma mark_spec limit i : 0 < i -> limit + i <= 4294967296 -> forall fuel j v, 0 <= j -> limit <= j + Z.of_nat fuel * i - i ->
  (0 < fuel)%nat ->
  exists v', mark fuel limit i j v = Some v' /\
    forall k, 0 <= k -> is_set v' k = true <-> is_set v k = true \/ (k < limit /\ exists t, 0 <= t /\ k = j + t * i).
Proof.
  intros Hi Hl. induction fuel; intros j v Hj Hf F; [lia|]. cbn [mark]. destruct (Z.ltb_spec j limit).
  - destruct fuel; [lia|]. unfold u32. rewrite Z.mod_small by lia.
    destruct (IHfuel (j + i) (set_true v j)) as (v' & E & S); [lia|lia|lia|]. exists v'. split; auto.
    intros k Hk. rewrite S by auto. rewrite is_set_true, orb_true_iff, Z.eqb_eq by auto. split.
    + intros [[->|H1]|(H1 & t & H2 & H3)]; auto; right; split; try lia; [exists 0|exists (t + 1)]; lia.
    + intros [H1|(H1 & t & H2 & H3)]; auto. destruct (Z.eq_dec t 0).
      * subst t. left. left. lia.
      * right. split; auto. exists (t - 1). lia.
  - exists v. split; auto. intros k Hk. split; auto. intros [H1|(H1 & t & H2 & H3)]; auto. nia.
Qed.

(** ** The outer loop: a number is marked when it has a divisor below [i] whose
    square does not exceed it *)

Definition sifted (limit i : Z) (v : bits) : Prop :=
  forall k, 0 <= k -> is_set v k = true <-> k < limit /\ exists p, 2 <= p < i /\ p * p <= k /\ (p | k).

Lemma sifted_next limit i v : sifted limit i v -> 2 <= i -> i < limit -> is_set v i = true -> sifted limit (i + 1) v.
Proof.
  unfold sifted. intros S Hi Hl H k Hk. rewrite S by auto. apply S in H; [|lia]. destruct H as (_ & p & Hp & Hpp & Hd). split.
  - intros (L & q & Q1 & Q2 & Q3). split; auto. exists q. repeat split; auto; lia.
  - intros (L & q & Q1 & Q2 & Q3). split; auto. destruct (Z.eq_dec q i).
    + subst q. exists p. repeat split; auto; try lia; [nia|]. apply Z.divide_trans with i; auto.
    + exists q. repeat split; auto; lia.
Qed.

Lemma sifted_mark limit i v v' : sifted limit i v -> 2 <= i -> i * i < limit ->
  (forall k, 0 <= k -> is_set v' k = true <-> is_set v k = true \/ (k < limit /\ exists t, 0 <= t /\ k = i * i + t * i)) ->
  sifted limit (i + 1) v'.
Proof.
  unfold sifted. intros S Hi Hl H k Hk. rewrite H by auto. rewrite S by auto. split.
  - intros [(L & q & Q1 & Q2 & Q3)|(L & t & T1 & T2)].
    + split; auto. exists q. repeat split; auto; lia.
    + split; auto. exists i. split; [lia|]. split; [nia|]. exists (i + t). lia.
  - intros (L & q & Q1 & Q2 & Q3). destruct (Z.eq_dec q i).
    + subst q. right. split; auto. destruct Q3 as [c Q3]. exists (c - i). nia.
    + left. split; auto. exists q. repeat split; auto; lia.
Qed.

Lemma sift_spec inner limit : 2 <= limit <= 4294836225 -> limit <= Z.of_nat inner -> forall fuel i v, 2 <= i <= 65536 ->
  (i - 1) * (i - 1) < limit \/ i = 2 ->
  limit < Z.of_nat fuel + i -> sifted limit i v ->
  exists v', sift fuel inner limit i v = Some v' /\ exists r, limit <= r * r /\ 2 <= r /\ sifted limit r v'.
Proof.
  intros HL HN. induction fuel; intros i v Hi Hi' Hf S.
  { exfalso. nia. }
  cbn [sift].
  assert (I65 : i * i < limit -> i <= 65535 /\ u32 (i * i) = i * i).
  { intro. unfold u32. split; [nia|]. rewrite Z.mod_small; nia. }
  destruct (Z_lt_dec (i * i) limit) as [L|L].
  - destruct (I65 L) as [I1 I2]. cbv zeta. rewrite I2. destruct (Z.ltb_spec (i * i) limit); [|lia].
    assert (U : u32 (i + 1) = i + 1) by (unfold u32; rewrite Z.mod_small; lia). rewrite U.
    destruct (is_set v i) eqn:E.
    + apply IHfuel; [lia|left; nia|lia|]. apply sifted_next; auto; nia.
    + destruct (mark_spec limit i ltac:(lia) ltac:(lia) inner (i * i) v) as (v' & M & Q); [nia|nia|lia|].
      rewrite M. apply IHfuel; [lia|left; nia|lia|].
      eapply sifted_mark; eauto; lia.
  - assert (U : u32 (i * i) = i * i \/ i = 65536).
    { destruct (Z.eq_dec i 65536); auto. left. unfold u32. rewrite Z.mod_small; nia. }
    destruct U as [U|U].
    + cbv zeta. rewrite U. destruct (Z.ltb_spec (i * i) limit); [lia|]. exists v. split; auto. exists i. split; [lia|]. split; [lia|auto].
    + exfalso. subst i. destruct Hi' as [Hi'|]; lia.
Qed.

(** ** Divisors and primes *)

Lemma small_divisor m : 2 <= m -> ~ prime m -> exists p, 2 <= p /\ p * p <= m /\ (p | m).
Proof.
  intros Hm NP. destruct (not_prime_divide m ltac:(lia) NP) as (n & Hn & D).
  destruct D as [c D]. destruct (Z_le_dec (n * n) m).
  - exists n. split; [lia|]. split; auto. exists c; auto.
  - exists c. assert (0 < c) by nia. split; [nia|]. split; [nia|]. exists n. lia.
Qed.

Lemma prime_no_divisor m p : prime m -> 2 <= p -> p * p <= m -> ~ (p | m).
Proof.
  intros Pm Hp Hpp D. destruct (prime_divisors m Pm p D) as [H|[H|[H|H]]]; try lia; subst; nia.
Qed.

Lemma sifted_prime limit r v k : sifted limit r v -> limit <= r * r -> 2 <= r -> 2 <= k < limit -> is_set v k = false <-> prime k.
Proof.
  unfold sifted. intros S L R K. split.
  - intro E. destruct (prime_dec k) as [|NP]; auto. exfalso. destruct (small_divisor k ltac:(lia) NP) as (p & P1 & P2 & P3).
    assert (is_set v k = true); [|congruence]. apply S; [lia|]. split; [lia|]. exists p. repeat split; auto; try lia; nia.
  - intro P. destruct (is_set v k) eqn:E; auto. exfalso. apply S in E; [|lia]. destruct E as (_ & p & P1 & P2 & P3).
    eapply prime_no_divisor; [exact P| | |exact P3]; lia.
Qed.

(** ** Collecting the primes *)

Lemma collect_in v : forall count i p, In p (collect count i v) <-> i <= p < i + Z.of_nat count /\ is_set v p = false.
Proof.
  induction count; intros i p; cbn [collect].
  - cbn. lia.
  - destruct (is_set v i) eqn:E.
    + rewrite IHcount. split; intros [H1 H2]; split; auto; try lia. destruct (Z.eq_dec p i); [congruence|lia].
    + cbn [In]. rewrite IHcount. split.
      * intros [<-|[H1 H2]]; split; auto; lia.
      * intros [H1 H2]. destruct (Z.eq_dec p i); [auto|right; split; auto; lia].
Qed.

Lemma collect_sorted v : forall count i, StronglySorted Z.lt (collect count i v).
Proof.
  induction count; intro i; cbn [collect]; [constructor|]. destruct (is_set v i); auto. constructor; auto.
  rewrite Forall_forall. intros x H. apply collect_in in H. lia.
Qed.

Lemma sieve_correct limit fuel : 2 <= limit <= 4294836225 -> limit <= Z.of_nat fuel ->
  exists v, sift fuel fuel limit 2 all_false = Some v /\
    let l := collect (Z.to_nat (limit - 2)) 2 v in StronglySorted Z.lt l /\ forall p, In p l <-> prime p /\ p < limit.
Proof.
  intros HL HF. destruct (sift_spec fuel limit HL HF fuel 2 all_false) as (v & E & r & R1 & R2 & S); try lia.
  { intros k Hk. rewrite is_set_false. split; [discriminate|]. intros (_ & p & P & _). lia. }
  exists v. split; auto. cbv zeta. split; [apply collect_sorted|]. intro p. rewrite collect_in. split.
  - intros [H1 H2]. split; [|lia]. apply (sifted_prime limit r v p); auto; lia.
  - intros [P1 P2]. pose proof (prime_ge_2 p P1). split; [lia|]. apply (sifted_prime limit r v p); auto; lia.
Qed.

(** ** Initial parts *)

Lemma sorted_firstn n : forall l : list Z, StronglySorted Z.lt l -> StronglySorted Z.lt (firstn n l).
Proof.
  induction n; intros l H; [constructor|]. destruct l; [constructor|]. cbn. inversion H; subst. constructor; auto.
  rewrite Forall_forall in *. intros x I. apply H3. rewrite <- (firstn_skipn n l). apply in_or_app; auto.
Qed.

Lemma sorted_app_lt (l1 l2 : list Z) : StronglySorted Z.lt (l1 ++ l2) -> forall p q, In p l1 -> In q l2 -> p < q.
Proof.
  induction l1; intros H p q; [intros []|]. cbn in H. inversion H; subst. intros [<-|I1] I2.
  - rewrite Forall_forall in H3. apply H3. apply in_or_app; auto.
  - apply IHl1; auto.
Qed.

Lemma first_primes_firstn n l limit : StronglySorted Z.lt l -> (forall p, In p l <-> prime p /\ p < limit) -> first_primes (firstn n l).
Proof.
  intros S H. split; [apply sorted_firstn; auto|]. split.
  - intros p I. apply H. rewrite <- (firstn_skipn n l). apply in_or_app; auto.
  - intros p q I P L. assert (Iq : In q l) by (rewrite <- (firstn_skipn n l); apply in_or_app; auto).
    assert (Ip : In p l) by (apply H; split; auto; apply H in Iq; lia).
    rewrite <- (firstn_skipn n l) in Ip, S. apply in_app_or in Ip. destruct Ip as [|I2]; auto.
    pose proof (sorted_app_lt _ _ S q p I I2). lia.
Qed.

Lemma generate_correct fuel n limit : 2 <= limit <= 4294836225 -> limit <= Z.of_nat fuel -> 0 <= n ->
  exists l, generate fuel n limit = Some (firstn (Z.to_nat n) (l ++ repeat 0 (Z.to_nat n))) /\
    StronglySorted Z.lt l /\ forall p, In p l <-> prime p /\ p < limit.
Proof.
  intros HL HF Hn. destruct (sieve_correct limit fuel HL HF) as (v & E & S). unfold generate. rewrite E.
  eexists. split; [reflexivity|]. exact S.
Qed.

(** any [m] primes below [limit] *)
Lemma count_length (l m : list Z) limit : StronglySorted Z.lt l -> (forall p, In p l <-> prime p /\ p < limit) ->
  NoDup m -> (forall p, In p m -> prime p /\ p < limit) -> (length m <= length l)%nat.
Proof. intros S H N I. apply NoDup_incl_length; auto. intros p Ip. apply H, I; auto. Qed.

Lemma generate_first fuel n limit m : 2 <= limit <= 4294836225 -> limit <= Z.of_nat fuel -> 0 <= n ->
  NoDup m -> (forall p, In p m -> prime p /\ p < limit) -> n <= Z.of_nat (length m) ->
  exists l, generate fuel n limit = Some l /\ first_primes l /\ Z.of_nat (length l) = n /\ (forall p, In p l -> p < limit).
Proof.
  intros HL HF Hn N I Hm. destruct (generate_correct fuel n limit HL HF Hn) as (l & E & S & H).
  pose proof (count_length l m limit S H N I) as C.
  rewrite firstn_app in E. replace (Z.to_nat n - length l)%nat with 0%nat in E by lia. cbn [firstn] in E. rewrite app_nil_r in E.
  eexists. split; [exact E|]. split; [eapply first_primes_firstn; eauto|]. split.
  - rewrite firstn_length. lia.
  - intros p Ip. apply H. rewrite <- (firstn_skipn (Z.to_nat n) l). apply in_or_app; auto.
Qed.

(** ** The static table *)

Definition count_below (limit : Z) : Z :=
  let fuel := Z.to_nat limit in
  match sift fuel fuel limit 2 all_false with
  | Some v => Z.of_nat (length (collect (Z.to_nat (limit - 2)) 2 v))
  | None => -1
  end.

Lemma count_65582 : count_below 65582 = 6550. Proof. vm_compute. reflexivity. Qed.
Lemma count_65581 : count_below 65581 = 6549. Proof. vm_compute. reflexivity. Qed.

Lemma primes_below limit : 2 <= limit <= 4294836225 ->
  exists l, StronglySorted Z.lt l /\ (forall p, In p l <-> prime p /\ p < limit) /\ Z.of_nat (length l) = count_below limit.
Proof.
  intro H. destruct (sieve_correct limit (Z.to_nat limit) H ltac:(lia)) as (v & E & S & Q). eexists. split; [exact S|]. split; [exact Q|].
  unfold count_below. rewrite E. reflexivity.
Qed.

Lemma sorted_NoDup l : StronglySorted Z.lt l -> NoDup l.
Proof. induction 1; constructor; auto. intro I. rewrite Forall_forall in H0. specialize (H0 a I). lia. Qed.

Lemma prime_65581 : prime 65581.
Proof.
  destruct (primes_below 65582 ltac:(lia)) as (l & S & Q & L). rewrite count_65582 in L.
  destruct (primes_below 65581 ltac:(lia)) as (l' & S' & Q' & L'). rewrite count_65581 in L'.
  destruct (prime_dec 65581); auto. exfalso.
  assert (length l <= length l')%nat; [|lia]. apply NoDup_incl_length; [apply sorted_NoDup; auto|].
  intros p I. apply Q in I. apply Q'. destruct I. split; auto. assert (p <> 65581) by congruence. lia.
Qed.

(** the table holds exactly the primes up to 65581 *)
Definition good_table (data : list Z) : Prop := StronglySorted Z.lt data /\ forall p, In p data <-> prime p /\ p <= 65581.

Lemma table_good limit fuel : 65582 <= limit <= 4294836225 -> limit <= Z.of_nat fuel ->
  exists data, generate fuel 6550 limit = Some data /\ Z.of_nat (length data) = 6550 /\ first_primes data /\ good_table data.
Proof.
  intros HL HF. destruct (primes_below 65582 ltac:(lia)) as (m & S & Q & L). rewrite count_65582 in L.
  destruct (generate_first fuel 6550 limit m) as (l & E & F & Ll & B); try lia.
  { apply sorted_NoDup; auto. } { intros p I. apply Q in I. split; [apply I|lia]. }
  exists l. split; auto. split; auto. split; auto. destruct F as (F1 & F2 & F3). split; auto.
  assert (I : In 65581 l).
  { destruct (in_dec Z.eq_dec 65581 l) as [|N]; auto. exfalso.
    destruct (primes_below 65581 ltac:(lia)) as (l' & S' & Q' & L'). rewrite count_65581 in L'.
    assert (length l <= length l')%nat; [|lia]. apply NoDup_incl_length; [apply sorted_NoDup; auto|].
    intros p I. apply Q'. split; [apply F2; auto|]. destruct (Z_lt_dec p 65581); auto. exfalso.
    assert (p <> 65581) by congruence. apply N. apply (F3 65581 p); auto using prime_65581. lia. }
  assert (Sub : forall p, prime p -> p <= 65581 -> In p l).
  { intros p P Hp. destruct (Z.eq_dec p 65581); [subst; auto|]. apply (F3 p 65581); auto. lia. }
  intro p. split; [|intros [? ?]; auto]. intro Ip. split; [auto|]. destruct (Z_le_dec p 65581); auto. exfalso.
  assert (length (p :: m) <= length l)%nat; [|cbn in *; lia]. apply NoDup_incl_length.
  - constructor; [|apply sorted_NoDup; auto]. intro Im. apply Q in Im. lia.
  - intros q [<-|Iq]; auto. apply Q in Iq. apply Sub; [apply Iq|lia].
Qed.
