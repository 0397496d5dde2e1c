(** * Proofs about the array class in memory. *)

From Coq Require Import ZArith List Bool Arith Lia.
From Verif Require Import Model Spec Limbs ModelDiv ModelStr ModelObj SpecObj.
Import ListNotations.

Record inv_mem (m : memory) : Prop := {
  im_size : forall x a, arrays m x = Some a ->
     match elems a with
     | None => elem_count a = 0%nat
     | Some p => exists l, blocks m p = Some l /\ length l = elem_count a /\ l <> []
     end;
  im_owner : forall x y a b p, arrays m x = Some a -> arrays m y = Some b ->
     elems a = Some p -> elems b = Some p -> x = y;
  im_used : forall p l, blocks m p = Some l -> exists x a, arrays m x = Some a /\ elems a = Some p;
  im_next : forall p, (next m <= p)%nat -> blocks m p = None
}.

Definition refines (m : memory) (s : lists) : Prop := inv_mem m /\ forall x, contents m x = s x.

Lemma refines_dead m s x : refines m s -> s x = None -> arrays m x = None.
Proof.
  intros [I H] E. rewrite <- H in E. unfold contents in E. destruct (arrays m x) as [a|] eqn:A; auto.
  pose proof (im_size m I x a A). destruct (elems a); [|discriminate]. destruct H0 as (l & B & _). congruence.
Qed.

Lemma refines_live m s x l : refines m s -> s x = Some l ->
  exists a, arrays m x = Some a /\ elem_count a = length l /\
  ((elems a = None /\ l = []) \/ exists p, elems a = Some p /\ blocks m p = Some l /\ l <> []).
Proof.
  intros [I H] E. rewrite <- H in E. unfold contents in E. destruct (arrays m x) as [a|] eqn:A; [|discriminate].
  exists a. split; auto. pose proof (im_size m I x a A) as S0. destruct (elems a) as [p|] eqn:P.
  - destruct S0 as (l' & B & L & NE). assert (l' = l) by congruence. subst. split; auto. right. eauto.
  - injection E as <-. split; auto.
Qed.

Ltac names := unfold put, l_put in *; cbn [blocks next arrays elems elem_count] in *;
  repeat match goal with
  | H : context [Nat.eqb ?a ?b] |- _ => destruct (Nat.eqb_spec a b)
  | |- context [Nat.eqb ?a ?b] => destruct (Nat.eqb_spec a b)
  | H : context [Nat.eq_dec ?a ?b] |- _ => destruct (Nat.eq_dec a b)
  | |- context [Nat.eq_dec ?a ?b] => destruct (Nat.eq_dec a b)
  end; subst; try congruence; try reflexivity.

Lemma refines_ext m s s' : refines m s -> (forall x, s x = s' x) -> refines m s'.
Proof. intros [I H] E. split; auto. intro x. rewrite H. auto. Qed.

Lemma refines_mem m m' s : refines m s -> blocks m' = blocks m -> next m' = next m ->
  (forall x, arrays m' x = arrays m x) -> refines m' s.
Proof.
  intros [I H] Eb En Ea. split.
  - constructor.
    + intros x a. rewrite Ea, Eb. apply (im_size m I).
    + intros x y a b p. rewrite !Ea. apply (im_owner m I).
    + intros p l. rewrite Eb. intro B. destruct (im_used m I p l B) as (x & a & A & P). exists x, a. rewrite Ea. auto.
    + rewrite En, Eb. apply (im_next m I).
  - intro x. unfold contents. rewrite Ea, Eb. apply H.
Qed.

(** a new array *)
Lemma init_ok m s x l : refines m s -> s x = None -> refines (array_init m x l) (l_put s x (Some l)).
Proof.
  intros R E. pose proof (refines_dead m s x R E) as D. destruct R as [I H].
  destruct l as [|z t]; unfold array_init, alloc, set_array.
  - split.
    + constructor; cbn [blocks next arrays].
      * intros y a A. names; [injection A as <-; reflexivity|exact (im_size m I y a A)].
      * intros y w a b p. names; intros; try (injection H0 as <-; discriminate); try (injection H1 as <-; discriminate).
        eapply (im_owner m I); eauto.
      * intros p l B. destruct (im_used m I p l B) as (y & a & A & P). exists y, a. names. auto.
      * apply (im_next m I).
    + intro y. unfold contents. names. apply H.
  - assert (Hn : blocks m (next m) = None) by (apply (im_next m I); auto).
    split.
    + constructor; cbn [blocks next arrays].
      * intros y a. names; intro A.
        -- injection A as <-. cbn [elems elem_count]. exists (z :: t). names. split; auto. split; auto. discriminate.
        -- pose proof (im_size m I y a A) as S0. destruct (elems a) as [p|]; auto.
           destruct S0 as (l & B & L & NE). exists l. names. auto.
      * intros y w a b p. names; intros A B P Q; auto.
        -- injection A as <-. cbn in P. injection P as <-. pose proof (im_size m I w b B) as S0. rewrite Q in S0.
           destruct S0 as (l & F & _). congruence.
        -- injection B as <-. cbn in Q. injection Q as <-. pose proof (im_size m I y a A) as S0. rewrite P in S0.
           destruct S0 as (l & F & _). congruence.
        -- eapply (im_owner m I); eauto.
      * intros p l. names; intro B.
        -- exists x. eexists. names. split; reflexivity.
        -- destruct (im_used m I p l B) as (y & a & A & P). exists y, a. names. auto.
      * intros p Hp. names. lia. apply (im_next m I). lia.
    + intro y. unfold contents. names; [cbn; names|].
      rewrite <- H. unfold contents. destruct (arrays m y) as [a|] eqn:A; auto. destruct (elems a) as [p|] eqn:P; auto.
      names. exfalso. pose proof (im_size m I y a A) as S0. rewrite P in S0. destruct S0 as (l & F & _). congruence.
Qed.

(** the block of one array is released, its name forgotten *)
Lemma release_ok m s x a : refines m s -> arrays m x = Some a ->
  exists m', release m a = Defined m' /\ arrays m' = arrays m /\ next m' = next m /\
  refines (set_array m' x None) (l_put s x None).
Proof.
  intros [I H] A. pose proof (im_size m I x a A) as S0. unfold release. destruct (elems a) as [p|] eqn:P.
  - destruct S0 as (l & B & L & NE). rewrite B, L, Nat.eqb_refl. eexists. split; [reflexivity|]. split; [reflexivity|].
    split; [reflexivity|]. unfold set_array. cbn [blocks next arrays]. split.
    + constructor; cbn [blocks next arrays].
      * intros y b. names. intro Y. pose proof (im_size m I y b Y) as S1. destruct (elems b) as [q|] eqn:Q; auto.
        destruct S1 as (l' & B' & L' & NE'). exists l'. names. exfalso. apply n. eapply (im_owner m I); eauto. auto.
      * intros y w b c q. names. intros. eapply (im_owner m I); eauto.
      * intros q l'. names. intro B'. destruct (im_used m I q l' B') as (y & b & Y & Q). exists y, b. names. auto.
      * intros q Hq. names. apply (im_next m I); auto.
    + intro y. unfold contents. names. rewrite <- H. unfold contents. destruct (arrays m y) as [b|] eqn:Y; auto.
      destruct (elems b) as [q|] eqn:Q; auto. names. exfalso. apply n. eapply (im_owner m I); eauto.
  - rewrite S0. cbn [Nat.eqb]. exists m. split; [reflexivity|]. split; [reflexivity|]. split; [reflexivity|].
    unfold set_array. split.
    + constructor; cbn [blocks next arrays].
      * intros y b. names. apply (im_size m I).
      * intros y w b c q. names. intros. eapply (im_owner m I); eauto.
      * intros q l' B'. destruct (im_used m I q l' B') as (y & b & Y & Q). exists y, b. names. auto.
      * apply (im_next m I).
    + intro y. unfold contents. names. apply H.
Qed.

(** one array handed from [y] (left empty) to the dead name [x] *)
Lemma give_ok m s x y b l : refines m s -> arrays m x = None -> s x = None -> arrays m y = Some b -> s y = Some l ->
  refines (set_array (set_array m x (Some b)) y (Some (mkarr 0 None))) (l_put (l_put s x (Some l)) y (Some [])).
Proof.
  intros [I H] X SX Y SY. assert (Hxy : x <> y) by congruence. unfold set_array. split.
  - constructor; cbn [blocks next arrays].
    + intros w a. names; intro W.
      * injection W as <-. reflexivity.
      * injection W as <-. apply (im_size m I y b Y).
      * apply (im_size m I w a W).
    + intros w v a c p. names; intros W V P Q; auto; try (injection W as <-; discriminate); try (injection V as <-; discriminate).
      * injection W as <-. exfalso. pose proof (im_owner m I y v b c p Y V P Q). congruence.
      * injection V as <-. exfalso. pose proof (im_owner m I w y a b p W Y P Q). congruence.
      * exact (im_owner m I w v a c p W V P Q).
    + intros p l' B. destruct (im_used m I p l' B) as (w & a & W & P). destruct (Nat.eq_dec w y).
      * subst. exists x, b. names. split; congruence.
      * exists w, a. names. auto.
    + apply (im_next m I).
  - intro w. unfold contents. names; cbn [elems]; auto.
    + rewrite <- SY, <- H. unfold contents. rewrite Y. reflexivity.
    + apply H.
Qed.

(** the block of one array gets new elements *)
Lemma rewrite_ok m s x a p l l' : refines m s -> arrays m x = Some a -> elems a = Some p -> blocks m p = Some l ->
  length l' = length l -> l' <> [] ->
  refines (mkmem (put (blocks m) p (Some l')) (next m) (arrays m)) (l_put s x (Some l')).
Proof.
  intros [I H] A P B L NE. split.
  - constructor; cbn [blocks next arrays].
    + intros y b Y. pose proof (im_size m I y b Y) as S0. destruct (elems b) as [q|] eqn:Q; auto.
      destruct S0 as (k & K & KL & KN). destruct (Nat.eq_dec q p).
      * subst. exists l'. names. split; auto. split; auto. congruence.
      * exists k. names. auto.
    + apply (im_owner m I).
    + intros q k. names; intro K; [|apply (im_used m I q k K)]. exists x, a. auto.
    + intros q Hq. names. rewrite (im_next m I p Hq) in B. discriminate. apply (im_next m I); auto.
  - intro y. unfold contents. cbn [blocks arrays]. destruct (Nat.eq_dec y x).
    + subst. rewrite A, P. names.
    + names. rewrite <- H. unfold contents. destruct (arrays m y) as [b|] eqn:Y; auto. destruct (elems b) as [q|] eqn:Q; auto.
      names. exfalso. pose proof (im_owner m I y x b a p Y A Q P). congruence.
Qed.

Lemma read_ok m s y b l n : refines m s -> arrays m y = Some b -> s y = Some l -> (n <= length l)%nat ->
  read_n m (elems b) n = Defined (firstn n l).
Proof.
  intros R Y S0 Hn. destruct (refines_live m s y l R S0) as (b' & Y' & L & C). assert (b' = b) by congruence. subst b'.
  destruct n; [reflexivity|]. unfold read_n. destruct C as [[P E]|(p & P & B & NE)].
  - subst. cbn in Hn. lia.
  - rewrite P, B. destruct (Nat.leb_spec (S n) (length l)); [reflexivity|lia].
Qed.

Lemma write_ok m s x a k l : refines m s -> arrays m x = Some a -> s x = Some k -> (length l <= length k)%nat ->
  exists m', write_l m (elems a) l = Defined m' /\ refines m' (l_put s x (Some (l ++ skipn (length l) k))).
Proof.
  intros R A S0 Hl. destruct l as [|z t].
  - cbn. exists m. split; auto. eapply refines_ext; eauto. intro y. names.
  - destruct (refines_live m s x k R S0) as (a' & A' & L & C). assert (a' = a) by congruence. subst a'.
    destruct C as [[P E]|(p & P & B & NE)]; [subst; cbn in Hl; lia|].
    unfold write_l. rewrite P, B. destruct (Nat.leb_spec (length (z :: t)) (length k)); [|lia].
    eexists. split; [reflexivity|]. apply (rewrite_ok m s x a p k); auto; [|discriminate].
    rewrite app_length, skipn_length. lia.
Qed.

Lemma upd_split : forall i v (l : list Z), (i < length l)%nat -> upd i v l = firstn i l ++ v :: skipn (S i) l.
Proof.
  induction i; intros v [|z t] H; cbn in *; try lia; auto. f_equal. apply IHi. lia.
Qed.

Lemma step_ok m s c s' : refines m s -> l_step s c = Some s' ->
  exists m', array_step m c = Defined m' /\ refines m' s'.
Proof.
  intros R. destruct c as [x l|x y|x y|x|x y|x y|x i v|x y]; cbn [l_step array_step].
  - destruct (s x) eqn:X; [discriminate|]. intro E. injection E as <-. rewrite (refines_dead m s x R X).
    eexists. split; [reflexivity|]. apply init_ok; auto.
  - destruct (s x) eqn:X; [discriminate|]. destruct (s y) as [l|] eqn:Y; [|discriminate]. intro E. injection E as <-.
    rewrite (refines_dead m s x R X). destruct (refines_live m s y l R Y) as (b & B & L & _). unfold array_copy.
    rewrite B, (read_ok m s y b l (elem_count b) R B Y (Nat.eq_le_incl _ _ L)), L, firstn_all. eexists. split; [reflexivity|]. apply init_ok; auto.
  - destruct (s x) eqn:X; [discriminate|]. destruct (s y) as [l|] eqn:Y; [|discriminate]. intro E. injection E as <-.
    pose proof (refines_dead m s x R X) as D. rewrite D. destruct (refines_live m s y l R Y) as (b & B & L & _). unfold array_move.
    rewrite B. eexists. split; [reflexivity|]. apply give_ok; auto.
  - destruct (s x) as [k|] eqn:X; [|discriminate]. intro E. injection E as <-.
    destruct (refines_live m s x k R X) as (a & A & _). unfold array_destroy. rewrite A.
    destruct (release_ok m s x a R A) as (m' & -> & _ & _ & R'). eexists. split; [reflexivity|]. auto.
  - destruct (s x) as [k|] eqn:X; [|discriminate]. destruct (s y) as [l|] eqn:Y; [|discriminate].
    destruct (refines_live m s x k R X) as (a & A & LA & _). destruct (refines_live m s y l R Y) as (b & B & LB & _).
    unfold array_assign. rewrite A, B. destruct (Nat.eqb_spec x y).
    + subst. assert (k = l) by congruence. subst. destruct (Nat.eq_dec (length l) (length l)); [|lia].
      intro E. injection E as <-. eexists. split; [reflexivity|]. eapply refines_ext; eauto. intro w. names.
    + rewrite LA, LB, (read_ok m s y b l (Nat.min (length k) (length l)) R B Y ltac:(lia)).
      destruct (write_ok m s x a k (firstn (Nat.min (length k) (length l)) l) R A X ltac:(rewrite firstn_length; lia)) as (m' & -> & R').
      intro E. exists m'. split; auto. eapply refines_ext; [exact R'|]. intro w.
      destruct (Nat.eq_dec (length k) (length l)) as [EL|EL]; injection E as <-; names; f_equal.
      * rewrite EL, Nat.min_id, firstn_all. rewrite skipn_all2 by lia. apply app_nil_r.
      * rewrite firstn_length. replace (Nat.min (Nat.min (length k) (length l)) (length l)) with (Nat.min (length k) (length l)) by lia.
        destruct (Nat.min_spec (length k) (length l)) as [[? ->]|[? ->]].
        -- rewrite !skipn_all2 by lia. reflexivity.
        -- rewrite firstn_all, (firstn_all2 l) by lia. reflexivity.
  - destruct (s x) as [k|] eqn:X; [|discriminate]. destruct (s y) as [l|] eqn:Y; [|discriminate]. intro E. injection E as <-.
    destruct (refines_live m s x k R X) as (a & A & LA & _). destruct (refines_live m s y l R Y) as (b & B & LB & _).
    unfold array_move_assign. rewrite A, B. destruct (release_ok m s x a R A) as (m' & -> & EA & EN & R').
    eexists. split; [reflexivity|]. destruct (Nat.eq_dec y x).
    + subst y. destruct R' as [I H]. split.
      * constructor; cbn [set_array blocks next arrays].
        -- intros w c. rewrite EA. names. intro W. injection W as <-. reflexivity. intro W. apply (im_size _ I w c). cbn. rewrite EA. names.
        -- intros w v c e p. rewrite EA. names; intros W V P Q; auto; try (injection W as <-; discriminate); try (injection V as <-; discriminate).
           apply (im_owner _ I w v c e p); auto; cbn; rewrite EA; names.
        -- intros p l' P. destruct (im_used _ I p l' P) as (w & c & W & Q). cbn in W. rewrite EA in W. exists w, c. rewrite EA. names. auto.
        -- apply (im_next _ I).
      * intro w. specialize (H w). unfold contents in *. cbn [set_array blocks next arrays] in *. rewrite EA in *. names.
    + eapply refines_ext; [eapply refines_mem; [apply (give_ok (set_array m' x None) (l_put s x None) x y b l R')| | |]|].
      * cbn. names.
      * names.
      * cbn. rewrite EA. names.
      * names.
      * reflexivity.
      * reflexivity.
      * intro w. cbn. names.
      * intro w. names.
  - destruct (s x) as [l|] eqn:X; [|discriminate]. destruct (lt_dec i (length l)); [|discriminate]. intro E. injection E as <-.
    destruct (refines_live m s x l R X) as (a & A & LA & C). unfold array_write. rewrite A.
    destruct C as [[P E]|(p & P & B & NE)]; [subst; cbn in *; lia|].
    rewrite P, B. destruct (Nat.ltb_spec i (length l)); [|lia]. eexists. split; [reflexivity|].
    rewrite upd_split by auto. apply (rewrite_ok m s x a p l); auto.
    + rewrite <- upd_split by auto. apply upd_length.
    + destruct (firstn i l); discriminate.
  - destruct (s x) as [k|] eqn:X; [|discriminate]. destruct (s y) as [l|] eqn:Y; [|discriminate]. intro E. injection E as <-.
    destruct (refines_live m s x k R X) as (a & A & LA & _). destruct (refines_live m s y l R Y) as (b & B & LB & _).
    unfold array_swap. rewrite A, B. eexists. split; [reflexivity|]. destruct R as [I H]. unfold set_array. split.
    + constructor; cbn [blocks next arrays].
      * intros w c. names; intro W; try (injection W as <-).
        -- apply (im_size m I x a A). -- apply (im_size m I y b B). -- apply (im_size m I w c W).
      * intros w v c e p. names; intros W V P Q; auto; try (injection W as <-); try (injection V as <-).
        -- pose proof (im_owner m I x y a b p A B P Q). congruence.
        -- exfalso. pose proof (im_owner m I x v a e p A V P Q). congruence.
        -- pose proof (im_owner m I y x b a p B A P Q). congruence.
        -- exfalso. pose proof (im_owner m I y v b e p B V P Q). congruence.
        -- exfalso. pose proof (im_owner m I w x c a p W A P Q). congruence.
        -- exfalso. pose proof (im_owner m I w y c b p W B P Q). congruence.
        -- exact (im_owner m I w v c e p W V P Q).
      * intros p l' P. destruct (im_used m I p l' P) as (w & c & W & Q). destruct (Nat.eq_dec w x); [|destruct (Nat.eq_dec w y)].
        -- subst. exists y, a. names. split; auto. congruence.
        -- subst. exists x, b. names. split; auto. congruence.
        -- exists w, c. names. auto.
      * apply (im_next m I).
    + intro w. unfold contents. names.
      * rewrite <- X, <- H. unfold contents. rewrite A. reflexivity.
      * rewrite <- Y, <- H. unfold contents. rewrite B. reflexivity.
      * apply H.
Qed.

Lemma refines_sound m s : refines m s -> memory_sound m.
Proof.
  intros [I _]. split.
  - intros p l B. destruct (im_used m I p l B) as (x & a & A & P). exists x. split; eauto.
    intros y b Y Q. exact (im_owner m I y x b a p Y A Q P).
  - intros x a A. pose proof (im_size m I x a A). destruct (elems a); auto. destruct H as (l & ? & ? & _). eauto.
Qed.

Lemma run_ok : forall h m s s', refines m s -> l_run s h = Some s' ->
  exists m', array_run m h = Defined m' /\ refines m' s'.
Proof.
  induction h as [|c t IH]; cbn [l_run array_run]; intros m s s' R E.
  - injection E as <-. eauto.
  - destruct (l_step s c) as [s1|] eqn:E1; [|discriminate]. destruct (step_ok m s c s1 R E1) as (m1 & -> & R1). eauto.
Qed.

Lemma array_memory h s : l_run (fun _ => None) h = Some s ->
  exists m, array_run no_memory h = Defined m /\ (forall x, contents m x = s x) /\ memory_sound m /\
  ((forall x, s x = None) -> forall p, blocks m p = None).
Proof.
  intro E. assert (R : refines no_memory (fun _ => None)).
  { split; [|reflexivity]. constructor; cbn; intros; discriminate || reflexivity. }
  destruct (run_ok h _ _ _ R E) as (m & Hm & R'). exists m. split; auto. split; [apply R'|]. split; [eapply refines_sound; eauto|].
  intros D p. destruct (blocks m p) as [l|] eqn:B; auto. destruct R' as [I H].
  destruct (im_used m I p l B) as (x & a & A & P). specialize (H x). rewrite D in H. unfold contents in H. rewrite A, P, B in H. discriminate.
Qed.
