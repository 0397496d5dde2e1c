(** * Model of atanh and of the series log1p1m2
      (libs/e_float/src/functions/elementary/elementary_trans.cpp).

    The virtual predicate i_have_my_own_atanh returns false for the efx back end
    (e_float/e_float_base.h 127-149), so the branch it guards is left out. *)

From Coq Require Import ZArith List Bool.
From Verif Require Import Model ModelDiv ModelPow ModelGen ModelElem.
Import ListNotations.
Open Scope Z_scope.

Section FixedDigits.
Variable d10 : Z.
Variable env : env.

(* functions/elementary/elementary_trans.cpp 387-407: the loop over the odd numbers
   3 <= n < max_iteration, at most 4999 passes; xn and sum are the variables of
   the same names *)
Fixpoint log1p1m2_loop (fuel : nat) (n : Z) (x2 xn sum : ef) : ef :=
  match fuel with
  | O => sum
  | S f =>
      if n <? max_iteration then
        let xn := mul d10 xn x2 in
        let term := div_int d10 xn n in
        if (20 <? n) && small_ef d10 term sum then sum
        else log1p1m2_loop f (n + 2) x2 xn (add d10 sum term)
      else sum
  end.

(* functions/elementary/elementary_trans.cpp 364-408 *)
Definition log1p1m2 (x : ef) : ef :=
  if negb (isfinite x) then x
  else if op_le x (one_minus d10) || op_ge x (one d10) then value_nan d10
  else log1p1m2_loop 5000 3 (mul d10 x x) x x.

(* functions/elementary/elementary_trans.cpp 645-668.  The last line of the function
   asks whether the magnitude of x is negative. *)
Definition atanh (x : ef) : outcome ef :=
  if negb (isfinite x) then Defined x
  else
    let xx := fabs x in
    if op_ge xx (one d10) then Defined (value_nan d10)
    else
      omap (fun v => if negb (isneg xx) then v else negate v)
        (if small_arg d10 x then Defined (log1p1m2 x)
         else omap (fun l => div_int d10 l 2) (log d10 env (div d10 (add d10 (one d10) x) (sub d10 (one d10) x)))).

End FixedDigits.
