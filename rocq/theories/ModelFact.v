(** * Model of the factorial functions: src/functions/gamma *)

From Coq Require Import ZArith List Bool.
From Verif Require Import Model ModelDiv ModelPow ModelStr ModelTables TabFact TabFact2 TabBin.
Import ListNotations.
Open Scope Z_scope.

Section FixedDigits.
Variable d10 : Z.
(* gamma/factorial.cpp 22-64: the series of log(n!) at infinity is not modelled *)
Variable series : Z -> io ef.

(* the entry of a table (a vector of functions returning constants); an index
   that is too large does not occur *)
Definition table_get (t : list entry) (n : Z) : io ef :=
  match nth_error t (Z.to_nat n) with Some en => entry_ef d10 en | None => UB end.

(* gamma/factorial.cpp 66-70, for a uint32_t n *)
Definition factorial (n : Z) : io ef :=
  if n <? Z.of_nat (length A000142) then table_get A000142 n else series ((n + 1) mod 2 ^ 32).

(* gamma/factorial.cpp 72-93, for uint32_t n and k *)
Definition binomial (n k : Z) : io ef :=
  if k >? n then Ok (value_nan d10)
  else if k =? n then Ok (one d10)
  else if n <? Z.of_nat (length A007318) then table_get (nth (Z.to_nat n) A007318 []) k
  else
    bind (factorial n) (fun a => bind (factorial k) (fun b => bind (factorial (n - k)) (fun c =>
    Ok (div d10 a (mul d10 b c))))).

(* conversion of a call without exceptions *)
Definition of_outcome (o : outcome ef) : io ef := match o with Defined r => Ok r | Undefined => UB end.

(* gamma/factorial2.cpp 24-29: even n *)
Definition f2_even (n : Z) : io ef :=
  bind (of_outcome (pow2 d10 (n / 2))) (fun p => bind (factorial (n / 2)) (fun f => Ok (mul d10 p f))).

(* gamma/factorial2.cpp 44-45: n >= 0; 30-35: odd n, where n + 1 may overflow *)
Definition f2_nonneg (n : Z) : io ef :=
  if n <? Z.of_nat (length A006882) then table_get A006882 n
  else if n mod 2 =? 0 then f2_even n
  else if n =? 2147483647 then UB
  else bind (factorial (n + 1)) (fun a => bind (f2_even (n + 1)) (fun b => Ok (div d10 a b))).

(* gamma/factorial2.cpp 38-72, for an int32_t n; 54: -n overflows for the
   smallest n *)
Definition factorial2 (n : Z) : io ef :=
  if n >=? 0 then f2_nonneg n
  else if n =? -1 then Ok (one d10)
  else if n =? -2147483648 then UB
  else
    let nn := - n in
    if nn mod 2 =? 0 then Ok (value_nan d10)
    else
      let h := (nn - 1) / 2 in
      bind (f2_nonneg (nn - 2)) (fun f =>
      let f2 := div d10 (one d10) f in
      Ok (if h mod 2 =? 0 then f2 else negate f2)).

End FixedDigits.
