(** * The reciprocal of ln 2 used by exp is rounded down (proofs only) *)

From Coq Require Import ZArith List Bool Ascii String Reals Lra Lia.
From Verif Require Import Model Spec Limbs Value CmpProofs AddProofs Decide ModelDiv ModelStr ModelConst.
Import ListNotations.
Open Scope Z_scope.

Definition recip_check (d : Z) : bool :=
  match const_ln2 d with
  | Ok l =>
      let r := div d (one d) l in
      let e := exp l + exp r - 16 * (elem_number d - 1) in
      wfb d l && isfinite l && (wfb d r && isfinite r) && (e <=? 0) && (sv l * sv r <? 10 ^ (- e))
  | _ => false
  end.

Definition digits_checked : list Z := [30; 50; 100; 101; 200].

Lemma recip_checked : forallb recip_check digits_checked = true.
Proof. vm_compute. reflexivity. Qed.

Lemma recip_value d l : recip_check d = true -> const_ln2 d = Ok l -> (value (div d (one d) l) * value l < 1)%R.
Proof.
  unfold recip_check. intros H E. rewrite E in H. cbv zeta in H. revert H. generalize (div d (one d) l). intros r H.
  apply andb_true_iff in H. destruct H as [H H4]. apply andb_true_iff in H. destruct H as [H H3]. apply andb_true_iff in H. destruct H as [H1 H2].
  apply wfb_finite in H1, H2. rewrite (multiple_sv d l H1), (multiple_sv d r H2). apply Z.leb_le in H3. apply Z.ltb_lt in H4. apply IZR_lt in H4.
  rewrite mult_IZR, <- (p10_nonneg (- _)) in H4 by lia. unfold ulp.
  replace (IZR (sv r) * powerRZ 10 (exp r - 8 * (elem_number d - 1)) * (IZR (sv l) * powerRZ 10 (exp l - 8 * (elem_number d - 1))))%R
    with (IZR (sv l) * IZR (sv r) * (powerRZ 10 (exp r - 8 * (elem_number d - 1)) * powerRZ 10 (exp l - 8 * (elem_number d - 1))))%R by ring.
  rewrite <- p10_add. set (e := (exp l + exp r - 16 * (elem_number d - 1))) in *.
  replace (exp r - 8 * (elem_number d - 1) + (exp l - 8 * (elem_number d - 1))) with e by (unfold e; ring).
  apply Rmult_lt_reg_r with (powerRZ 10 (- e)); [apply p10_pos|]. rewrite Rmult_assoc, <- p10_add, Z.add_opp_diag_r, p10_0. lra.
Qed.
