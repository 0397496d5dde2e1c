(** * Powers of integers with tables (proofs only) *)

From Coq Require Import ZArith List Bool Reals Lra Lia Znumtheory.
From Verif Require Import Model ModelPow PowGen ModelPrime SpecPrime SpecJPow ModelJPow.
Import ListNotations.

Section Tables.
Context {T E : Type}.
Variables (one : T) (mul : T -> T -> T) (sq : T -> T) (of_n : Z -> T) (pown : T -> Z -> option T) (exp : T -> option T) (scale : T -> E -> T) (log_n : Z -> option E).
Variable integer_of : T -> option Z.
Variable factors_of : Z -> option (list (Z * Z)).
Local Notation compute := (compute of_n pown exp scale log_n integer_of).
Local Notation lookup := (lookup of_n pown exp scale log_n integer_of).
Local Notation pf_loop := (pf_loop mul sq of_n pown exp scale log_n integer_of).
Local Notation j_pow_x := (j_pow_x one mul sq of_n pown exp scale log_n integer_of factors_of).
Local Notation fresh := (j_pow_x_fresh one mul sq of_n pown exp scale log_n integer_of factors_of).
Local Notation expand := (expand mul sq pown).

(* n^x without tables *)
Definition direct (x : T) (n : Z) : option T :=
  match integer_of x with
  | Some k => pown (of_n n) k
  | None => obnd (log_n n) (fun l => exp (scale x l))
  end.
Fixpoint direct_loop (x : T) (pf : list (Z * Z)) (jpx : T) : option T :=
  match pf with
  | [] => Some jpx
  | (n, p) :: r => obnd (direct x n) (fun v => obnd (expand v p) (fun w => direct_loop x r (mul jpx w)))
  end.

Definition lm_ok (lm : table E) : Prop := forall n l, find_key lm n = Some l -> log_n n = Some l.
Definition pm_ok (x : T) (pm : table T) : Prop := forall n v, find_key pm n = Some v -> direct x n = Some v.

Lemma insert_ok {A} (P : Z -> A -> Prop) m n v : (forall k w, find_key m k = Some w -> P k w) -> P n v -> forall k w, find_key ((n, v) :: m) k = Some w -> P k w.
Proof. intros H V k w. cbn [find_key]. destruct (Z.eqb_spec n k) as [->|]; [intro E0; injection E0 as <-; exact V|apply H]. Qed.

Lemma lookup_ok x lm pm n : lm_ok lm -> pm_ok x pm ->
  match direct x n with
  | Some v => exists lm' pm', lookup x lm pm n = Some (v, lm', pm') /\ lm_ok lm' /\ pm_ok x pm'
  | None => lookup x lm pm n = None
  end.
Proof.
  intros L P. unfold ModelJPow.lookup. destruct (find_key pm n) as [v|] eqn:F.
  - rewrite (P n v F). exists lm, pm. auto.
  - unfold ModelJPow.compute. assert (I : forall v, direct x n = Some v -> pm_ok x ((n, v) :: pm)) by (intros v D; exact (insert_ok (fun n v => direct x n = Some v) pm n v P D)). destruct (integer_of x) as [k|] eqn:K.
    + assert (D : direct x n = pown (of_n n) k) by (unfold direct; rewrite K; reflexivity). rewrite D. destruct (pown (of_n n) k) as [v|]; cbn [obnd]; [|reflexivity].
      exists lm, ((n, v) :: pm). split; [reflexivity|]. split; [exact L|]. apply I. exact D.
    + assert (D : direct x n = obnd (log_n n) (fun l => exp (scale x l))) by (unfold direct; rewrite K; reflexivity). rewrite D.
      unfold logn. destruct (find_key lm n) as [l|] eqn:G.
      * rewrite (L n l G) in *. cbn [obnd] in *. destruct (exp (scale x l)) as [v|]; cbn [obnd]; [|reflexivity].
        exists lm, ((n, v) :: pm). split; [reflexivity|]. split; [exact L|]. apply I. exact D.
      * destruct (log_n n) as [l|] eqn:Gl; cbn [obnd] in *; [|reflexivity]. destruct (exp (scale x l)) as [v|]; cbn [obnd]; [|reflexivity].
        exists ((n, l) :: lm), ((n, v) :: pm). split; [reflexivity|]. split; [|apply I; exact D]. unfold lm_ok. apply (insert_ok (fun n l => log_n n = Some l) lm n l L Gl).
Qed.

Lemma pf_loop_ok x pf : forall jpx lm pm, lm_ok lm -> pm_ok x pm ->
  match direct_loop x pf jpx with
  | Some v => exists lm' pm', pf_loop x pf jpx lm pm = Some (v, lm', pm') /\ lm_ok lm' /\ pm_ok x pm'
  | None => pf_loop x pf jpx lm pm = None
  end.
Proof.
  induction pf as [|(n, p) r IH]; intros jpx lm pm L P; cbn [direct_loop ModelJPow.pf_loop].
  - exists lm, pm. auto.
  - pose proof (lookup_ok x lm pm n L P) as Q. destruct (direct x n) as [v|]; cbn [obnd].
    + destruct Q as (lm' & pm' & -> & L' & P'). cbn [obnd]. destruct (expand v p) as [w|]; cbn [obnd]; [|reflexivity]. apply IH; assumption.
    + rewrite Q. reflexivity.
Qed.

Definition plain (x : T) (j : Z) : option T := obnd (factors_of j) (fun pf => direct_loop x pf one).

Lemma j_pow_x_ok x j lm pm : lm_ok lm -> pm_ok x pm ->
  match plain x j with
  | Some v => exists lm' pm', j_pow_x j x lm pm = Some (v, lm', pm') /\ lm_ok lm' /\ pm_ok x pm'
  | None => j_pow_x j x lm pm = None
  end.
Proof. intros L P. unfold plain, ModelJPow.j_pow_x. destruct (factors_of j) as [pf|]; cbn [obnd]; [apply pf_loop_ok; assumption|reflexivity]. Qed.

Lemma nil_lm : lm_ok []. Proof. intros n l H. discriminate H. Qed.
Lemma nil_pm x : pm_ok x []. Proof. intros n l H. discriminate H. Qed.

Lemma fresh_plain x j : fresh j x = plain x j.
Proof. unfold j_pow_x_fresh. pose proof (j_pow_x_ok x j [] [] nil_lm (nil_pm x)) as H. destruct (plain x j); [destruct H as (a & b & -> & _)|rewrite H]; reflexivity. Qed.

Lemma calls_ok x js : forall lm pm, lm_ok lm -> pm_ok x pm ->
  match all_some (map (fun j => fresh j x) js) with
  | Some vs => exists lm', calls one mul sq of_n pown exp scale log_n integer_of factors_of x js lm pm = Some (vs, lm') /\ lm_ok lm'
  | None => calls one mul sq of_n pown exp scale log_n integer_of factors_of x js lm pm = None
  end.
Proof.
  induction js as [|j r IH]; intros lm pm L P; cbn [map all_some calls].
  - exists lm. auto.
  - rewrite fresh_plain. pose proof (j_pow_x_ok x j lm pm L P) as Q. destruct (plain x j) as [v|].
    + destruct Q as (lm' & pm' & -> & L' & P'). cbn [obnd]. specialize (IH lm' pm' L' P'). destruct (all_some (map _ r)) as [vs|]; [destruct IH as (lm'' & -> & L''); exists lm''; auto|rewrite IH; reflexivity].
    + rewrite Q. reflexivity.
Qed.

Lemma session_ok h : forall lm, lm_ok lm ->
  session one mul sq of_n pown exp scale log_n integer_of factors_of h lm = all_some (map (fun '(x, js) => all_some (map (fun j => fresh j x) js)) h).
Proof.
  induction h as [|(x, js) r IH]; intros lm L; cbn [map all_some session]; [reflexivity|].
  pose proof (calls_ok x js lm [] L (nil_pm x)) as Q. destruct (all_some (map _ js)) as [vs|].
  - destruct Q as (lm' & -> & L'). cbn [obnd]. rewrite (IH lm' L'). destruct (all_some (map _ r)); reflexivity.
  - rewrite Q. reflexivity.
Qed.
End Tables.

(** ** Real numbers *)
Open Scope R_scope.

Definition opt {A : Type} (o : outcome A) : option A := match o with Defined a => Some a | Undefined => None end.
Definition r_pown (b : R) (p : Z) : option R := opt (pown_gen 1 1 Rmult (fun x => x * x) Rdiv b p).

Lemma iter_mult b n : Nat.iter n (Rmult b) 1 = b ^ n.
Proof. induction n as [|n IH]; [reflexivity|]. change (b * Nat.iter n (Rmult b) 1 = b * b ^ n). rewrite IH. reflexivity. Qed.

Lemma r_pown_value b p : 0 < b -> (-9223372036854775808 < p < 9223372036854775808)%Z -> r_pown b p = Some (Rpower b (IZR p)).
Proof.
  intros B H. destruct (pow_gen_monoid R 1 Rmult (fun x => x * x) Rdiv b Rmult_1_l Rmult_1_r Rmult_assoc (fun x => eq_refl)) as [A C]. cbv zeta in A, C. unfold r_pown.
  destruct (Z.ltb_spec p 0).
  - destruct (C p ltac:(lia)) as [_ ->]. cbn [opt]. rewrite iter_mult, <- Rpower_pow by exact B. unfold Rdiv. rewrite Rmult_1_l, <- Rpower_Ropp. f_equal. f_equal. rewrite INR_IZR_INZ, Z2Nat.id by lia. rewrite <- opp_IZR. f_equal. lia.
  - destruct (A p ltac:(lia)) as [_ ->]. cbn [opt]. rewrite iter_mult, <- Rpower_pow by exact B. f_equal. f_equal. rewrite INR_IZR_INZ, Z2Nat.id by lia. reflexivity.
Qed.

Section Reals.
Variable integer_of : R -> option Z.
Hypothesis Hint : forall x k, integer_of x = Some k -> x = IZR k /\ (-9223372036854775808 < k < 9223372036854775808)%Z.
Local Notation r_exp := (fun x => Some (Rtrigo_def.exp x)).
Local Notation r_log := (fun n => Some (ln (IZR n))).

Lemma direct_value x n : (0 < n)%Z -> direct IZR r_pown r_exp Rmult r_log integer_of x n = Some (Rpower (IZR n) x).
Proof.
  intro N. assert (0 < IZR n) by (apply IZR_lt; exact N). unfold direct. destruct (integer_of x) as [k|] eqn:K.
  - destruct (Hint x k K) as [-> B]. apply r_pown_value; assumption.
  - reflexivity.
Qed.

Lemma expand_value v p : 0 < v -> (1 <= p < 4294967296)%Z -> expand Rmult (fun x => x * x) r_pown v p = Some (Rpower v (IZR p)).
Proof.
  intros V P. unfold expand. pose proof (Rpower_1 v V) as V1.
  destruct (Z.eqb_spec p 1) as [->|]; [rewrite V1; reflexivity|]. destruct (Z.eqb_spec p 2) as [->|]; [replace 2 with (1 + 1) by lra; rewrite Rpower_plus, V1; reflexivity|].
  destruct (Z.eqb_spec p 3) as [->|]; [replace 3 with (1 + (1 + 1)) by lra; rewrite !Rpower_plus, V1; reflexivity|].
  rewrite (r_pown_value v (p - 1) V) by lia. cbn [obnd]. f_equal. rewrite <- V1 at 1. rewrite <- Rpower_plus. f_equal. rewrite minus_IZR. lra.
Qed.

Lemma Rpower_one x : Rpower 1 x = 1.
Proof. unfold Rpower. rewrite ln_1, Rmult_0_r. apply exp_0. Qed.

Lemma product_pos f : (forall p k, In (p, k) f -> (0 < p /\ 1 <= k)%Z) -> (0 < product f)%Z.
Proof.
  induction f as [|(p, k) r IH]; intro H; cbn [product]; [lia|]. destruct (H p k (or_introl eq_refl)). apply Z.mul_pos_pos; [apply Z.pow_pos_nonneg; lia|]. apply IH. intros. apply H. right. assumption.
Qed.

Lemma loop_value x f : (forall p k, In (p, k) f -> (0 < p /\ 1 <= k < 4294967296)%Z) -> forall jpx,
  direct_loop Rmult (fun x => x * x) IZR r_pown r_exp Rmult r_log integer_of x f jpx = Some (jpx * Rpower (IZR (product f)) x).
Proof.
  induction f as [|(p, k) r IH]; intros H jpx; cbn [direct_loop product].
  - rewrite Rpower_one, Rmult_1_r. reflexivity.
  - destruct (H p k (or_introl eq_refl)) as [Hp Hk]. assert (Pp : 0 < IZR p) by (apply IZR_lt; exact Hp). rewrite direct_value by exact Hp. cbn [obnd].
    rewrite expand_value by (try exact Hk; apply exp_pos). cbn [obnd]. rewrite IH by (intros; apply H; right; assumption). f_equal. rewrite Rmult_assoc. f_equal.
    assert (0 < product r)%Z by (apply product_pos; intros a b I; destruct (H a b (or_intror I)); lia).
    rewrite mult_IZR, <- Rpower_mult_distr by (try (apply IZR_lt; apply Z.pow_pos_nonneg; lia); apply IZR_lt; assumption). f_equal.
    rewrite Rpower_mult, Rmult_comm, <- Rpower_mult. f_equal. replace (IZR (p ^ k)) with (IZR p ^ Z.to_nat k) by (rewrite pow_IZR, Z2Nat.id by lia; reflexivity).
    rewrite <- Rpower_pow by exact Pp. f_equal. rewrite INR_IZR_INZ, Z2Nat.id by lia. reflexivity.
Qed.

Lemma product_app a b : product (a ++ b) = (product a * product b)%Z.
Proof. induction a as [|(p, k) r IH]; cbn [product app]; [rewrite Z.mul_1_l; reflexivity|]. rewrite IH. ring. Qed.

Lemma fresh_value factors_of x j r f : (1 <= j < 4294967296)%Z -> factors_of j = Some r -> factorization j f -> (r = f \/ r = f ++ [(1, 1)]%Z) ->
  j_pow_x_fresh 1 Rmult (fun x => x * x) IZR r_pown r_exp Rmult r_log integer_of factors_of j x = Some (Rpower (IZR j) x).
Proof.
  intros J F (_ & Fp & Fj) R. rewrite fresh_plain. unfold plain. rewrite F. cbn [obnd].
  assert (Q : forall p k, In (p, k) f -> (0 < p /\ 1 <= k < 4294967296)%Z).
  { intros p k I. destruct (Fp p k I) as [A B]. destruct A as [A _]. split; [lia|]. split; [exact B|].
    assert (D : (p ^ k <= product f)%Z).
    { clear -I Fp A B. induction f as [|(q, m) r IH]; [contradiction|]. cbn [product]. destruct (Fp q m (or_introl eq_refl)) as [Aq Bq]. destruct Aq as [Aq _].
      assert (Pr : (0 < product r)%Z) by (apply product_pos; intros a b I'; destruct (Fp a b (or_intror I')) as [[X _] Y]; lia).
      assert (Pq : (0 < q ^ m)%Z) by (apply Z.pow_pos_nonneg; lia). destruct I as [I|I].
      - injection I as -> ->. nia.
      - specialize (IH (fun a b I' => Fp a b (or_intror I')) I). nia. }
    pose proof (Z.pow_le_mono_l 2 p k ltac:(lia)). pose proof (Z.pow_gt_lin_r 2 k ltac:(lia) ltac:(lia)). lia. }
  assert (Q' : forall p k, In (p, k) r -> (0 < p /\ 1 <= k < 4294967296)%Z).
  { destruct R as [->| ->]; [exact Q|]. intros p k I. apply in_app_or in I. destruct I as [I|[I|[]]]; [apply Q; exact I|injection I as <- <-; lia]. }
  rewrite loop_value by exact Q'. f_equal. rewrite Rmult_1_l. f_equal. f_equal.
  destruct R as [->| ->]; [exact Fj|]. rewrite product_app, Fj. cbn. lia.
Qed.
End Reals.
