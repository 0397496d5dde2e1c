(** * Model of the tables of integers: src/functions/tables *)

From Coq Require Import ZArith List Bool.
From Verif Require Import Model SpecText ModelStr.
Import ListNotations.
Open Scope Z_scope.

(* An entry of a table is the argument of the constructor of e_float:
   - an int32_t or int64_t literal n,
   - a string of k decimal digits, after a minus sign if s is set,
   - a string with a sign ('-' if s is set), one digit, a point, k further digits
     and an exponent "E+" of 18 digits.
   The digits of a string are written here in groups of 20, the first group
   being shorter. *)
Inductive entry :=
| IntE (n : Z)
| StrE (s : bool) (k : Z) (groups : list Z)
| SciE (s : bool) (k : Z) (groups : list Z) (e : Z).

(* the integer written with groups of 20 digits *)
Definition number (groups : list Z) : Z := fold_left (fun a g => a * 10 ^ 20 + g) groups 0.

(* the last k decimal digits of n, in front of acc *)
Fixpoint digs (k : nat) (n : Z) (acc : list Z) : list Z :=
  match k with O => acc | S k => digs k (n / 10) (n mod 10 :: acc) end.

(* the text of the string literal of an entry *)
Definition entry_literal (en : entry) : literal :=
  match en with
  | IntE n => mkliteral None [] false [] None
  | StrE s k gs => mkliteral (if s then Some true else None) (digs (Z.to_nat k) (number gs) []) false [] None
  | SciE s k gs e =>
      let ds := digs (Z.to_nat (k + 1)) (number gs) [] in
      mkliteral (Some s) (firstn 1 ds) true (skipn 1 ds) (Some (true, Some false, digs 18 e []))
  end.

(* the constant object: "static const e_float val(...)" *)
Definition entry_ef (d10 : Z) (en : entry) : io ef :=
  match en with
  | IntE n => Ok (of_sll d10 n)
  | StrE _ _ _ | SciE _ _ _ _ => of_string d10 (text (entry_literal en))
  end.
