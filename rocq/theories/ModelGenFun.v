(** * Model: generic_functions, the templates for any type of numbers

    Models src/generic_functions/elementary/generic_functions_elementary.h (tests,
    integer powers, square root, roots) and euler_gamma of
    src/generic_functions/constants/generic_functions_constants.h.  The operations of the
    number type are parameters.  Not modelled: log, pi and ln2 by the arithmetic-geometric
    mean.  SIMPLIFIED: frexp10 and the starting values, which the code gets from double
    arithmetic by way of texts, are parameters. *)

From Coq Require Import ZArith List Bool.
From Verif Require Import Model ModelPow.
Import ListNotations.
Open Scope Z_scope.

Section Generic.
Context {T : Type}.
(* of_int n is the conversion of an int operand; min_val is numeric_limits<T>::min(),
   nan is numeric_limits<T>::quiet_NaN(), digits is numeric_limits<T>::digits10 *)
Variables (one : T) (add sub mul div : T -> T -> T) (opp : T -> T) (of_int : Z -> T) (lt : T -> T -> bool).
Variables (min_val nan : T) (digits : Z).

(* generic_functions_elementary.h 35-38 *)
Definition g_isneg (x : T) : bool := lt x (of_int 0).
Definition g_fabs (x : T) : T := if g_isneg x then opp x else x.
Definition g_iszero (x : T) : bool := lt (g_fabs x) (mul min_val (of_int 2)).
Definition g_isone (x : T) : bool := g_iszero (sub (of_int 1) x).

(* 135-141: value is squared while n <= p / 2; the result is (value, n) *)
Fixpoint square_loop (fuel : nat) (p : Z) (value : T) (n : Z) : T * Z :=
  match fuel with
  | O => (value, n)
  | S f => if n <=? p / 2 then square_loop f p (mul value value) (n * 2) else (value, n)
  end.

(* 113-149 for p >= 0; every call removes the leading bit of p, so that 64 calls and 64 squarings are enough *)
Fixpoint g_pown_nonneg (fuel : nat) (t : T) (p : Z) : T :=
  if p =? 0 then one
  else if p =? 1 then t
  else if p =? 2 then mul t t
  else if p =? 3 then mul (mul t t) t
  else if p =? 4 then let tsq := mul t t in mul tsq tsq
  else match fuel with
       | O => t
       | S f =>
           let '(value, n) := square_loop 64 p t 1 in
           if p - n =? 0 then value else mul value (g_pown_nonneg f t (p - n))
       end.

(* 108-111: -p overflows for the smallest 64-bit integer *)
Definition g_pown (t : T) (p : Z) : outcome T :=
  if p <? 0 then
    if p =? -9223372036854775808 then Undefined
    else Defined (div one (g_pown_nonneg 64 t (- p)))
  else Defined (g_pown_nonneg 64 t p).

(* 201-208: the coupled iteration for result and vi *)
Fixpoint sqrt_loop (fuel : nat) (x result vi : T) (dg : Z) : T :=
  match fuel with
  | O => result
  | S f =>
      if dg <=? digits then
        let vi := add vi (mul vi (add (opp (mul (mul result vi) (of_int 2))) (of_int 1))) in
        let result := add result (mul vi (add (opp (mul result result)) x)) in
        sqrt_loop f x result vi (dg * 2)
      else result
  end.

(* 153-211; est x are the texts of 181-197 read as numbers, about sqrt(x) and 1 / (2 sqrt(x)) *)
Definition g_sqrt (est : T -> T * T) (x : T) : T :=
  if g_isneg x then nan
  else if g_iszero x || g_isone x then x
  else let '(result, vi) := est x in sqrt_loop 40 x result vi 14.

(* 270-275 *)
Fixpoint root_loop (fuel : nat) (x : T) (p : Z) (rtn : T) (dg : Z) : outcome T :=
  match fuel with
  | O => Defined rtn
  | S f =>
      if dg <=? digits then
        match g_pown rtn p with
        | Undefined => Undefined
        | Defined w =>
            let term := add (div (add (mul (opp w) x) (of_int 1)) (of_int p)) (of_int 1) in
            root_loop f x p (mul rtn term) (dg * 2)
        end
      else Defined rtn
  end.

(* 226-278 for p >= 0; rest x p is the text of 260-266 read as a number, about x^(-1/p) *)
Definition root_nonneg (est : T -> T * T) (rest : T -> Z -> T) (x : T) (p : Z) : outcome T :=
  if (p =? 0) || g_isneg x then Defined nan
  else if p =? 1 then Defined x
  else if p =? 2 then Defined (g_sqrt est x)
  else omap (fun r => div (of_int 1) r) (root_loop 40 x p (rest x p) 14).

(* 221-224: a negative p; -p overflows for the smallest int *)
Definition g_rootn (est : T -> T * T) (rest : T -> Z -> T) (x : T) (p : Z) : outcome T :=
  if p <? 0 then
    if p =? -2147483648 then Undefined else root_nonneg est rest (div (of_int 1) x) (- p)
  else root_nonneg est rest x p.

(* 46-48: the specialisations for float, double and long double; power is ::pow *)
Definition builtin_rootn (power : T -> T -> T) (x : T) (p : Z) : T := power x (of_int p).

(* generic_functions_constants.h 152-159 *)
Definition g_euler_gamma : T := of_int 0.

End Generic.
