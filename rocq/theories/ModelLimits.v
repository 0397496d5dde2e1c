(** * Model of std::numeric_limits<e_float> (libs/e_float/src/e_float/e_float.h
      49-85, e_float.cpp 32-46, e_float_base.cpp 81-96). *)

From Coq Require Import ZArith List Ascii.
From Verif Require Import Model ModelStr.
Import ListNotations.
Open Scope char_scope.
Open Scope Z_scope.

Section Limits.
Variable d10 : Z.

(* utility/util_lexical_cast.h 16-24 for signed values *)
Definition cast_int (z : Z) : str := if z <? 0 then "-"%char :: lexical_cast (- z) else lexical_cast z.

(* e_float_base.cpp 83-84 *)
Definition max_text : str :=
  ["9"%char; "."%char] ++ repeat "9"%char (Z.to_nat (max_digits10 d10)) ++ ["e"%char; "+"%char] ++ cast_int max_exp10.
(* e_float_base.cpp 93 *)
Definition min_text : str := ["1"%char; "."%char; "0"%char; "e"%char] ++ cast_int min_exp10.
(* e_float.cpp 39 *)
Definition eps_text : str := ["1"%char; "E"%char; "-"%char] ++ cast_int (d10 - 1).

(* e_float.h 75-81 with e_float.cpp 32-46: min, max, lowest, epsilon, round_error,
   infinity, quiet_NaN *)
Definition limits_min : io ef := of_string d10 min_text.
Definition limits_max : io ef := of_string d10 max_text.
Definition limits_lowest : ef := zero d10.
Definition limits_epsilon : io ef := of_string d10 eps_text.
Definition limits_round_error : ef := half d10.
Definition limits_infinity : ef := signed_inf d10 false.
Definition limits_quiet_nan : ef := value_nan d10.

End Limits.
