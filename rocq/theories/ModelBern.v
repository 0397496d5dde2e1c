(** * Model of the Bernoulli numbers: src/functions/integer/bernoulli_b.cpp *)

From Coq Require Import ZArith List Bool.
From Verif Require Import Model ModelDiv ModelStr ModelTables ModelFact TabBern.
Import ListNotations.
Open Scope Z_scope.

Section FixedDigits.
Variable d10 : Z.
(* bernoulli_b.cpp 40-66: the loop for indices above the tables is not modelled *)
Variable series : Z -> io ef.

(* bernoulli_b.cpp 18-67, for a uint32_t n.  The tables A000367 and A002445,
   with 1001 entries each, are in TabBern.v. *)
Definition bernoulli (n : Z) : io ef :=
  if negb (n mod 2 =? 0) then Ok (if n =? 1 then negate (half d10) else zero d10)
  else
    let n_half := n / 2 in
    if n_half <? Z.min (Z.of_nat (length A000367)) (Z.of_nat (length A002445)) then
      bind (table_get d10 A000367 n_half) (fun a => bind (table_get d10 A002445 n_half) (fun b =>
      Ok (div d10 a b)))
    else series n.

(* v[i] and v[i] = x of a std::vector, for indices within its size *)
Definition get (v : list ef) (i : nat) : ef := nth i v (zero d10).
Fixpoint upd (v : list ef) (i : nat) (x : ef) : list ef :=
  match v, i with
  | [], _ => []
  | _ :: r, O => x :: r
  | y :: r, S j => y :: upd r j x
  end.

(* bernoulli_b.cpp 86-89: k = 2 .. m *)
Definition tangent_first (m : nat) (t : list ef) : list ef :=
  fold_left (fun t k => upd t k (mul_int d10 (get t (k - 1)) (Z.of_nat (k - 1)))) (seq 2 (m - 1)) t.

(* bernoulli_b.cpp 93-99: j = k .. m *)
Definition tangent_pass (m k : nat) (t : list ef) : list ef :=
  fold_left (fun t j =>
    upd t j (add d10 (mul_int d10 (get t (j - 1)) (Z.of_nat (j - k)))
                     (mul_int d10 (get t j) (Z.of_nat (j - k + 2))))) (seq k (m + 1 - k)) t.

(* bernoulli_b.cpp 80-100; the elements of a new vector are default constructed;
   m >= 1 *)
Definition tangent_numbers (m : nat) : list ef :=
  let t := upd (upd (repeat (ef_default d10) (m + 1)) 0 (zero d10)) 1 (one d10) in
  fold_left (fun t k => tangent_pass m k t) (seq 2 (m - 1)) (tangent_first m t).

(* bernoulli_b.cpp 107-118: one step of the loop over i *)
Definition table_step (t : list ef) (st : list ef * ef) (i : nat) : list ef * ef :=
  let '(bn, p) := st in
  let b := div d10 (mul_int d10 (get t i) (2 * Z.of_nat i)) (sub d10 (mul d10 p p) p) in
  (upd bn (2 * i) (if negb ((2 * Z.of_nat i) mod 4 =? 0) then b else negate b), mul_int d10 p 4).

(* bernoulli_b.cpp 70-122, for a uint32_t n.  78: m + 1 must not overflow, 109:
   nor must 2 * i.  83: the element [1] exists only for m >= 1. *)
Definition bernoulli_table (n : Z) : io (list ef) :=
  let nn := if negb (n mod 2 =? 0) then (n + 1) mod 2 ^ 32 else n in
  let m := nn / 2 in
  if (m =? 0) || (m >=? 2 ^ 30) then UB
  else
    let t := tangent_numbers (Z.to_nat m) in
    let bn := repeat (ef_default d10) (Z.to_nat (nn + 1)) in
    let '(bn, _) := fold_left (table_step t) (seq 1 (Z.to_nat m)) (bn, of_sll d10 4) in
    Ok (upd (upd bn 0 (one d10)) 1 (negate (half d10))).

End FixedDigits.
