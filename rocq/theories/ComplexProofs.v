(** * Complex arithmetic over an arbitrary field, and over the real numbers *)

From Coq Require Import ZArith List Bool Lia Ring Field Reals Lra.
From Verif Require Import Model ModelPow ModelGen PowGen.
Import ListNotations.
Open Scope Z_scope.

Section AnyField.
Variables (K : Type) (zero one : K) (add sub mul div : K -> K -> K) (opp inv twice halve : K -> K) (ltabs : K -> K -> bool).
Hypothesis F : field_theory zero one add mul sub opp div inv eq.
Hypothesis T2 : forall x, twice x = add x x.
Hypothesis H2 : forall x, twice (halve x) = x.
Add Field KF : F.

Local Notation C := (cx K).
Local Notation Zc := (mkcx zero zero).
Local Notation Oc := (mkcx one zero).
Local Notation Ic := (mkcx zero one).
Local Notation cadd := (c_add add).
Local Notation csub := (c_sub zero sub).
Local Notation cmul := (c_mul add sub mul twice).
Local Notation cdiv := (c_div zero one add sub mul div opp ltabs).
Local Notation ediv := (e_div zero one add sub mul inv).
Local Notation cneg := (c_neg opp).

Lemma cx_eq (a b c d : K) : a = c -> b = d -> mkcx a b = mkcx c d.
Proof. intros -> ->. reflexivity. Qed.

Lemma complex_ring : ring_theory Zc Oc cadd (cmul false) (csub false) cneg eq.
Proof.
  constructor; intros; repeat match goal with z : cx _ |- _ => let p := fresh "p" in let q := fresh "q" in destruct z as [p q] end; unfold c_add, c_sub, c_mul, c_neg; cbn [re im]; apply cx_eq; ring.
Qed.

Lemma complex_i : cmul false Ic Ic = cneg Oc.
Proof. unfold c_mul, c_neg; cbn [re im]; apply cx_eq; ring. Qed.

Lemma complex_split z : z = cadd (mkcx (re z) zero) (cmul false Ic (mkcx (im z) zero)).
Proof. destruct z as [a b]; unfold c_add, c_mul; cbn [re im]; apply cx_eq; ring. Qed.

Lemma complex_embed x y :
  cadd (mkcx x zero) (mkcx y zero) = mkcx (add x y) zero /\ cmul false (mkcx x zero) (mkcx y zero) = mkcx (mul x y) zero.
Proof. split; unfold c_add, c_mul; cbn [re im]; apply cx_eq; ring. Qed.

Lemma complex_same z : csub true z z = csub false z z /\ cmul true z z = cmul false z z.
Proof. split; destruct z as [a b]; unfold c_sub, c_mul; cbn [re im]; apply cx_eq; rewrite ?T2; ring. Qed.

(** the two divisions *)
Lemma e_div_correct z w : e_norm add mul w <> zero -> cmul false (ediv false z w) w = z.
Proof.
  destruct z as [a b], w as [c d]. unfold e_norm, e_div, c_mul; cbn [re im]. intro N. unfold e_norm; cbn [re im]. apply cx_eq; field; exact N.
Qed.

Lemma c_div_correct z w : e_norm add mul w <> zero ->
  (ltabs (re w) (im w) = true -> im w <> zero) -> (ltabs (re w) (im w) = false -> re w <> zero) ->
  cmul false (cdiv false z w) w = z.
Proof.
  destruct z as [a b], w as [c d]. unfold e_norm, c_div, c_mul; cbn [re im]. intros N A B. destruct (ltabs c d).
  - specialize (A eq_refl). cbn [re im]. apply cx_eq; field; split; auto.
  - specialize (B eq_refl). cbn [re im]. apply cx_eq; field; split; auto; intro E; apply N; rewrite <- E; ring.
Qed.

Lemma rc_div_correct u w : e_norm add mul w <> zero ->
  (ltabs (re w) (im w) = true -> im w <> zero) -> (ltabs (re w) (im w) = false -> re w <> zero) ->
  cmul false (rc_div add mul div opp ltabs u w) w = mkcx u zero /\ cmul false (re_div add mul div opp u w) w = mkcx u zero.
Proof.
  destruct w as [c d]. unfold e_norm, rc_div, re_div, c_mul; cbn [re im]. intros N A B. split.
  - destruct (ltabs c d).
    + specialize (A eq_refl). cbn [re im]. apply cx_eq; field; split; auto.
    + specialize (B eq_refl). cbn [re im]. apply cx_eq; field; split; auto; intro E; apply N; rewrite <- E; ring.
  - unfold e_norm; cbn [re im]. apply cx_eq; field; exact N.
Qed.

Lemma c_norm_correct z : (ltabs (re z) (im z) = true -> im z <> zero) -> (ltabs (re z) (im z) = false -> re z <> zero) ->
  c_norm one add mul div ltabs z = e_norm add mul z.
Proof.
  destruct z as [a b]. unfold c_norm, e_norm; cbn [re im]. intros A B. destruct (ltabs a b).
  - specialize (A eq_refl). field; auto.
  - specialize (B eq_refl). field; auto.
Qed.

Lemma mixed_correct (u : C) (v : K) :
  let V := mkcx v zero in
  cr_add add u v = cadd u V /\ cr_sub sub u v = csub false u V /\ cr_mul mul u v = cmul false u V /\
  rc_add add v u = cadd V u /\ rc_sub sub opp v u = csub false V u /\ rc_mul mul v u = cmul false V u /\ er_mul mul v u = cmul false V u /\
  (v <> zero -> cmul false (cr_div div u v) V = u).
Proof.
  cbv zeta. destruct u as [a b]. repeat apply conj; intros; unfold cr_add, cr_sub, cr_mul, cr_div, rc_add, rc_sub, rc_mul, er_mul, c_add, c_sub, c_mul; cbn [re im]; apply cx_eq; try ring; field; assumption.
Qed.

Lemma complex_pow_correct (dv : C -> C -> C) (z : C) : let power n := Nat.iter n (cmul false z) Oc in
  (forall p, 0 <= p < 9223372036854775808 ->
     c_pow zero one add sub mul twice dv z p = Defined (power (Z.to_nat p))) /\
  (forall p, -9223372036854775808 < p < 0 ->
     c_pow zero one add sub mul twice dv z p = Defined (dv Oc (power (Z.to_nat (- p))))).
Proof.
  cbv zeta. pose proof complex_ring as RT. unfold c_pow.
  destruct (pow_gen_monoid C Oc (cmul false) (fun x => cmul true x x) dv z) as [P N].
  - intro x. apply (Rmul_1_l RT).
  - intro x. rewrite (Rmul_comm RT). apply (Rmul_1_l RT).
  - intros. symmetry. apply (Rmul_assoc RT).
  - intro x. apply complex_same.
  - split; intros p Hp; [apply P|apply N]; exact Hp.
Qed.

Lemma c_proj_correct z : add (c_norm one add mul div ltabs z) one <> zero -> add one one <> zero ->
  mul (add (c_norm one add mul div ltabs z) one) (re (c_proj one add mul div halve ltabs z)) = mul (add one one) (re z) /\
  mul (add (c_norm one add mul div ltabs z) one) (im (c_proj one add mul div halve ltabs z)) = mul (add one one) (im z).
Proof.
  unfold c_proj. cbn [re im]. set (n := add _ one). intros N O2.
  assert (HN : halve n <> zero) by (intro E; apply N; rewrite <- (H2 n), T2, E; ring).
  assert (E : n = mul (add one one) (halve n)) by (rewrite <- (H2 n) at 1; rewrite T2; ring).
  split; rewrite E at 1; field; exact HN.
Qed.

Lemma e_proj_correct z : add (e_norm add mul z) one <> zero ->
  mul (add (e_norm add mul z) one) (re (e_proj one add mul twice inv z)) = mul (add one one) (re z) /\
  mul (add (e_norm add mul z) one) (im (e_proj one add mul twice inv z)) = mul (add one one) (im z).
Proof. unfold e_proj. cbn [re im]. intro N. rewrite T2. split; field; exact N. Qed.

(** ** Pochhammer *)
Fixpoint rising (x : K) (n : nat) : K :=
  match n with O => one | S m => mul (rising x m) (add x (Nat.iter m (add one) zero)) end.

Lemma poch_loop_spec k : forall x val m, 
  poch_loop mul (fun y => add y one) k val (add x (Nat.iter m (add one) zero)) =
  fold_left (fun v j => mul v (add x (Nat.iter j (add one) zero))) (seq (S m) k) val.
Proof.
  induction k as [|k IH]; intros x val m; [reflexivity|]. cbn [poch_loop seq fold_left].
  assert (E : add (add x (Nat.iter m (add one) zero)) one = add x (Nat.iter (S m) (add one) zero)) by (change (Nat.iter (S m) (add one) zero) with (add one (Nat.iter m (add one) zero)); ring).
  rewrite E, IH. reflexivity.
Qed.

Lemma rising_fold x k : rising x (S k) = fold_left (fun v j => mul v (add x (Nat.iter j (add one) zero))) (seq 1 k) x.
Proof.
  induction k as [|k IH]; [cbn; ring|]. rewrite seq_S, fold_left_app, <- IH. cbn [fold_left]. reflexivity.
Qed.

Lemma pochhammer_correct x n : pochhammer one mul (fun y => add y one) x n = rising x n.
Proof.
  destruct n as [|[|m]]; [reflexivity|cbn; ring|]. unfold pochhammer. rewrite (rising_fold x (S m)).
  pose proof (poch_loop_spec (S m) x x 0) as E. rewrite <- E. f_equal. cbn; ring.
Qed.

Lemma rising_list x n : rising x n = fold_right mul one (map (fun k => add x (Nat.iter k (add one) zero)) (seq 0 n)).
Proof.
  assert (A : forall l a, fold_right mul one (l ++ a :: nil) = mul (fold_right mul one l) a).
  { induction l as [|b l IH]; intro a; cbn [app fold_right]; [ring|]. rewrite IH. ring. }
  induction n as [|n IH]; [reflexivity|]. rewrite seq_S, map_app. cbn [map]. rewrite A, <- IH. reflexivity.
Qed.

Lemma pochhammer_product x n : pochhammer one mul (fun y => add y one) x n =
  fold_right mul one (map (fun k => add x (Nat.iter k (add one) zero)) (seq 0 n)).
Proof. rewrite pochhammer_correct. apply rising_list. Qed.
End AnyField.
