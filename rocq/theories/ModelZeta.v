(** * Model of the Riemann zeta function: src/functions/zeta/zeta.cpp *)

From Coq Require Import ZArith List Bool.
From Verif Require Import Model ModelDiv ModelPow ModelStr ModelFact ModelTables TabBern ModelBern ModelElem ModelJPow.
Import ListNotations.
Open Scope Z_scope.

(* zeta.cpp 24-44; table_max is twice the smaller size of the two tables of Bernoulli numbers *)
Definition has_simple_form (table_max n : Z) : bool :=
  let is_neg := n <? 0 in
  let is_even := n mod 2 =? 0 in
  (n <? table_max) && ((negb is_neg && is_even) || is_neg).

(** ** Integer arguments *)

Section FixedDigits.
Variable d10 : Z.
(* beyond the tables: the series of factorial and of bernoulli, and riemann_zeta(e_float(n)) *)
Variables (fact_series bern_series : Z -> io ef) (zeta_general : ef -> io ef).
(* zeta.cpp 247-254: double(n) * log10(2.0) > double(tolerance()) *)
Variable large : Z -> bool.
(* ef::pi() *)
Variable pi : ef.

(* constants.cpp 160, 161 *)
Definition pi_squared : ef := mul d10 pi pi.
Definition two_pi : ef := mul_int d10 pi 2.

Definition b2n_table_max : Z := 2 * Z.min (Z.of_nat (length A000367)) (Z.of_nat (length A002445)).

(* zeta.cpp 242-294, for an int32_t n.  278: -n + 1 overflows for the two smallest n *)
Definition zeta_int (n : Z) : io ef :=
  if (n >? 1) && large n then Ok (one d10)
  else if negb (has_simple_form b2n_table_max n) then zeta_general (of_sll d10 n)
  else if n =? 0 then Ok (negate (half d10))
  else if n =? 1 then Ok (value_inf d10)
  else if n =? 2 then Ok (div_int d10 pi_squared 6)
  else if n =? 4 then Ok (div_int d10 (mul d10 pi_squared pi_squared) 90)
  else if n <? 0 then
    if n <=? -2147483647 then UB
    else
      let two_n := - n + 1 in
      if n mod 2 =? 0 then Ok (zero d10)
      else bind (bernoulli d10 bern_series two_n) (fun b => Ok (div_int d10 (negate b) two_n))
  else
    match pown d10 two_pi n with
    | Undefined => UB
    | Defined p =>
        bind (bernoulli d10 bern_series n) (fun b =>
        bind (factorial d10 fact_series n) (fun f =>
        Ok (div_int d10 (div d10 (mul d10 p (fabs b)) f) 2)))
    end.

End FixedDigits.

(** ** The template, for arguments of a real type T *)

Section Template.
Context {T E : Type}.
(* one(), *, /, -, isneg, isint *)
Variables (one : T) (mul div sub : T -> T -> T) (isneg isint : T -> bool).
(* pi(), two_pi(), pi_half(), sin, pow, gamma *)
Variables (pi two_pi pi_half : T) (sin : T -> T) (pow : T -> T -> option T) (gamma : T -> option T).
(* to_int32; riemann_zeta for integers; order_of(abs(x)); tolerance() *)
Variables (to_int32 : T -> Z) (zeta_n : Z -> option T) (order : T -> Z) (tol : Z).
(* the parameters of j_pow_x *)
Variables (sq : T -> T) (of_n : Z -> T) (pown : T -> Z -> option T) (exp : T -> option T) (scale : T -> E -> T) (log_n : Z -> option E)
  (integer_of : T -> option Z) (factors_of : Z -> option (list (Z * Z))).
(* zeta.cpp 124-132: the first 300 primes; 140-144: the test for the product; 165-237: the
   accelerated series, with the new table of logarithms *)
Variables (primes : list Z) (use_product : T -> bool) (series : T -> table E -> option (T * table E)).
Variable table_max : Z.

(* zeta.cpp 146-161: the loop over the primes, with the maps of j_pow_x *)
Fixpoint product_loop (s : T) (ps : list Z) (product : T) (lm : table E) (pm : table T) : option (T * table E) :=
  match ps with
  | [] => Some (product, lm)
  | p :: r =>
      obnd (j_pow_x one mul sq of_n pown exp scale log_n integer_of factors_of p s lm pm) (fun '(v, lm', pm') =>
      let product' := mul product (div v (sub v one)) in
      if order v >? tol then Some (product', lm') else product_loop s r product' lm' pm')
  end.

(* zeta.cpp 47-66: the reflection, given gamma(1 - s) and zeta(1 - s) *)
Definition reflection (s g z : T) : option T :=
  obnd (pow two_pi s) (fun p =>
  let two_pi_term := div p pi in
  let chi := mul (mul two_pi_term (sin (mul pi_half s))) g in
  Some (mul chi z)).

(* zeta.cpp 68-239; the recursive call has a positive argument *)
Fixpoint zeta (fuel : nat) (s : T) (lm : table E) : option (T * table E) :=
  match fuel with
  | O => None
  | S f =>
      if isint s && has_simple_form table_max (to_int32 s) then obnd (zeta_n (to_int32 s)) (fun z => Some (z, lm))
      else if isneg s then
        obnd (gamma (sub one s)) (fun g =>
        obnd (zeta f (sub one s) lm) (fun '(z, lm') =>
        obnd (reflection s g z) (fun r => Some (r, lm'))))
      else if use_product s then product_loop s primes one lm []
      else series s lm
  end.

End Template.
