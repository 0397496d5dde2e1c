(** * C60: the mathematical constants

    sqrt(2), pi, e, ln 2, ln 10 and the golden ratio are read from decimal
    literals of 1100 digits.  The model contains the literals; the theorems
    compare what is read with the real numbers. *)

From Coq Require Import ZArith List Bool Ascii String Reals Lra Lia.
From Verif Require Import Model Spec Value Decide ModelStr ModelConst ExpReal ConstReal ConstLit SeriesFloat.
Open Scope R_scope.
Local Notation exp := Rtrigo_def.exp.
Local Notation sqrt := R_sqrt.sqrt.

(** The constants and the numbers they stand for. *)
(* pi() is read from its literal for fewer than 1010 digits *)
Inductive is_constant (d : Z) : (Z -> io ef) -> R -> Prop :=
| is_sqrt2 : is_constant d const_sqrt2 (sqrt 2)
| is_pi    : (d < 1010)%Z -> is_constant d const_pi PI
| is_e     : is_constant d const_e (exp 1)
| is_ln2   : is_constant d const_ln2 (ln 2)
| is_ln10  : is_constant d const_ln10 (ln 10)
| is_phi   : is_constant d const_phi ((1 + sqrt 5) / 2).

Lemma constant_facts d f r : is_constant d f r ->
  exists s, f = (fun d => of_string d s) /\ lit_check s = true /\ within s r /\ 2 / 10 <= r <= 9.
Proof.
  intros [].
  - exists sqrt2_text. split; [reflexivity|]. split; [apply lit_check_of; left; reflexivity|]. split; [exact sqrt2_within|]. pose proof sqrt2_bound. lra.
  - exists pi_text. split; [reflexivity|]. split; [apply lit_check_of; right; left; reflexivity|]. split; [exact pi_within|]. pose proof PI_4. pose proof PI2_1. lra.
  - exists e_text. split; [reflexivity|]. split; [apply lit_check_of; right; right; left; reflexivity|]. split; [exact e_within|]. pose proof e_bound. lra.
  - exists ln2_text. split; [reflexivity|]. split; [apply lit_check_of; right; right; right; left; reflexivity|]. split; [exact ln2_within|]. pose proof ln2_bounds. lra.
  - exists ln10_text. split; [reflexivity|]. split; [apply lit_check_of; right; right; right; right; left; reflexivity|]. split; [exact ln10_within|]. pose proof ln10_bound. lra.
  - exists phi_text. split; [reflexivity|]. split; [apply lit_check_of; right; right; right; right; right; left; reflexivity|]. split; [exact phi_within|]. pose proof sqrt5_bound. lra.
Qed.

(** C60, up to 1084 digits (1009 for pi, which is computed by an iteration
    beyond that): each of these constants is a finite number of full precision, within
    10^-(digits10 + 15) of the real number.  Missing: the constants derived from
    these and those without a known formula to check them against. *)
Theorem C60_constants_partial :
  forall d f r, valid_digits d -> (d <= 1084)%Z -> is_constant d f r ->
  exists c, f d = Ok c /\ finite d c /\ full d c /\ Rabs (value c - r) <= powerRZ 10 (- (d + 15)).
Proof.
  intros d f r Hd D H. destruct (constant_facts d f r H) as (s & -> & L & W & B). exact (read_within s r d L W Hd D B).
Qed.
Print Assumptions C60_constants_partial.

(** C60 is false for more digits: from 1104 digits on, each of these constants
    other than pi() (whose iteration is not modelled) is wrong
    before its last digit, by the same amount however large digits10 is. *)
Theorem C60_constants_refuted :
  forall d f r, valid_digits d -> (1104 <= d)%Z -> is_constant d f r ->
  exists c, f d = Ok c /\ finite d c /\ full d c /\
  powerRZ 10 (-1103) <= Rabs (value c - r) <= powerRZ 10 (-1100).
Proof.
  intros d f r Hd D H. destruct (constant_facts d f r H) as (s & -> & L & W & B). exact (read_literal s r d L W Hd D B).
Qed.
Print Assumptions C60_constants_refuted.

Example C60_hypotheses_met :
  valid_digits 101 /\ (101 <= 1084)%Z /\ valid_digits 2000 /\ (1104 <= 2000)%Z /\ is_constant 101 const_ln2 (ln 2) /\ is_constant 101 const_pi PI.
Proof. unfold valid_digits. repeat split; try lia; [apply is_ln2|apply is_pi; lia]. Qed.
