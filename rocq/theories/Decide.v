(** * Boolean check of well-formedness, used to exhibit concrete objects that
    meet the hypotheses of the theorems (proofs only). *)

From Coq Require Import ZArith List Bool Lia Reals Lra.
From Verif Require Import Model Spec Limbs Value CmpProofs AddProofs.
Import ListNotations.
Open Scope Z_scope.

Definition wfb (d : Z) (x : ef) : bool :=
  (Z.of_nat (length (data x)) =? elem_number d) &&
  forallb (fun a => (0 <=? a) && (a <? 100000000)) (data x) &&
  (exp x mod 8 =? 0) && (2 <=? prec x) && (prec x <=? elem_number d) &&
  (if isfinite x
   then if nth 0 (data x) 0 =? 0 then forallb (Z.eqb 0) (data x) && negb (neg x) else true
   else forallb (Z.eqb 0) (data x) && (exp x =? 0)).

Lemma forallb_zero l : forallb (Z.eqb 0) l = true -> Forall (fun d => d = 0) l.
Proof.
  rewrite forallb_forall, Forall_forall. intros H x Hx. apply H in Hx. apply Z.eqb_eq in Hx. auto.
Qed.

Lemma wfb_wf d x : wfb d x = true -> wf d x.
Proof.
  unfold wfb. rewrite !andb_true_iff. intros [[[[[H1 H2] H3] H4] H5] H6].
  apply Z.eqb_eq in H1, H3. apply Z.leb_le in H4, H5. constructor; auto.
  - apply Forall_forall. rewrite forallb_forall in H2. intros a Ha. apply H2 in Ha.
    apply andb_true_iff in Ha. unfold is_limb. lia.
  - intros Hc H0. unfold isfinite in H6. rewrite Hc in H6. rewrite H0 in H6. simpl in H6.
    apply andb_true_iff in H6. destruct H6 as [H6 H7]. split; [apply forallb_zero; auto|].
    destruct (neg x); auto; discriminate.
  - intro Hc. unfold isfinite in H6. destruct (cls x); try congruence;
    apply andb_true_iff in H6; destruct H6 as [H6 H7]; apply Z.eqb_eq in H7; split; auto using forallb_zero.
Qed.

Lemma wfb_finite d x : wfb d x && isfinite x = true -> finite d x.
Proof.
  intro H. apply andb_true_iff in H. destruct H as [H1 H2]. split; [apply wfb_wf; auto|].
  unfold isfinite in H2. destruct (cls x); auto; discriminate.
Qed.

Lemma valid_30 : valid_digits 30. Proof. unfold valid_digits; lia. Qed.
Lemma valid_100 : valid_digits 100. Proof. unfold valid_digits; lia. Qed.

(* comparison with max() *)
Lemma le_max_check d x : valid_digits d -> wfb d x && isfinite x && op_le (fabs x) (value_max d) = true ->
  (Rabs (value x) <= max_value d)%R.
Proof.
  intros Hd H. apply andb_true_iff in H. destruct H as [H1 H2]. apply wfb_finite in H1.
  rewrite <- (value_max_value d Hd), <- (fabs_value d x Hd H1).
  apply (cmp_all_ops d); auto using fabs_finite, value_max_finite.
Qed.

Lemma value_nonzero_check d x : valid_digits d -> wfb d x && isfinite x && negb (iszero x) = true ->
  value x <> 0%R.
Proof.
  intros Hd H. apply andb_true_iff in H. destruct H as [H1 H2]. apply wfb_finite in H1.
  intro V. apply (finite_zero_iff d) in V; auto.
  rewrite (proj2 (iszero_true x (proj2 H1))) in H2 by auto. discriminate.
Qed.

(** Closes concrete instances of hypotheses. *)
Ltac meets :=
  repeat match goal with |- _ /\ _ => split end;
  lazymatch goal with
  | |- valid_digits _ => unfold valid_digits; lia
  | |- finite _ _ => apply wfb_finite; vm_compute; reflexivity
  | |- wf _ _ => apply wfb_wf; vm_compute; reflexivity
  | |- is_inf _ _ => vm_compute; split; reflexivity
  | |- is_nan _ => vm_compute; reflexivity
  | |- full _ _ => vm_compute; reflexivity
  | |- @eq R _ _ => reflexivity
  | |- value _ <> _ => first [apply (value_nonzero_check 30) | apply (value_nonzero_check 100)]; [unfold valid_digits; lia | vm_compute; reflexivity]
  | |- (Rabs (value _) <= max_value _)%R => apply le_max_check; [unfold valid_digits; lia | vm_compute; reflexivity]
  | |- (_ <= _ <= _)%Z => lia
  | |- (_ < _)%Z => lia
  | |- (_ <= _)%Z => lia
  | |- _ = _ => vm_compute; reflexivity
  end.
