(** * The checks of the tables (proofs only) *)

From Coq Require Import ZArith List Bool.
From Verif Require Import ModelTables TabProofs TabFact TabFact2 TabBin.
Import ListNotations.

Definition entry_one (en : entry) : bool := match en with IntE n => (n =? 1)%Z | _ => false end.

(* the table starts with 1 (or 1, 1), continues as checked by [chain], and its
   first entries are exact *)
Definition table_check (K T : Z) (lag len m : nat) (l : list entry) : bool :=
  let prev := repeat ([1%Z], 0%Z) (S lag) in
  forallb entry_one (firstn (S lag) l) && Nat.eqb (length l) len &&
  chain K T lag (Z.of_nat (S lag)) prev (skipn (S lag) l) &&
  exact_chain lag (Z.of_nat (S lag)) prev (firstn (m - S lag) (skipn (S lag) l)).

Lemma fact_checked : table_check 419 10 0 1001 244 A000142 = true.
Proof. vm_compute. reflexivity. Qed.

Lemma fact2_checked : table_check 424 1000000 1 1001 397 A006882 = true.
Proof. vm_compute. reflexivity. Qed.

Definition binomial_check (t : list (list entry)) : bool :=
  match t with
  | [en] :: rows => small_entry en && (match en with IntE n => (n =? 1)%Z | _ => false end) && pascal_rows [mant en] rows && Nat.eqb (length rows) 160
  | _ => false
  end.

Lemma binomials_checked : binomial_check A007318 = true.
Proof. vm_compute. reflexivity. Qed.
