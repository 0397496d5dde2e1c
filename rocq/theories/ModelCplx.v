(** * Model, part 12: functions of a complex number.

    The elementary functions of ef::complex<T>, for any component type; the
    functions of the component type, the norm and the quotient of complex numbers
    are parameters.  SIMPLIFIED: every parameter is a total function, so a
    component type whose functions throw or are undefined is not covered. *)

From Coq Require Import ZArith List Bool.
From Verif Require Import Model ModelDiv ModelPow ModelGen.
Open Scope Z_scope.

Section Argument.
Context {T : Type}.
(* is0 is ef::iszero, neg is ef::isneg *)
Variables (zero pi pi_half : T) (add sub div : T -> T -> T) (opp ratan : T -> T) (is0 neg : T -> bool).

(* functions/elementary/elementary_trig.cpp 475-520: atan2.  SIMPLIFIED: no
   infinite and no undefined arguments; sgn(y) * pi_half() is pi_half() or its
   negative.  [ModelElem.atan2] is the function with its special values *)
Definition atan2_gen (y x : T) : T :=
  if is0 y then (if neg x then pi else zero)
  else if is0 x then (if neg y then opp pi_half else pi_half)
  else
    let t := ratan (div y x) in
    if Bool.eqb (neg y) (neg x) then (if neg x then sub t pi else t)
    else (if neg x then add t pi else t).
End Argument.

Section Functions.
Context {T : Type}.
(* zero, one, add, ..., halve as in ModelGen.v; pi_half is ef::pi_half() for e_float
   and asin(T(1U)) for the class template; ln10 is ef::ln10() and log(T(10)) *)
Variables (zero one pi_half ln10 : T) (add sub mul div : T -> T -> T) (opp twice halve : T -> T) (lt0 : T -> bool).
(* the functions of the component type *)
Variables (rsqrt rexp rlog rsin rcos rsinh rcosh : T -> T) (ratan2 : T -> T -> T).
(* norm(z) and z / w: [c_norm], [c_div false] for the class template and [e_norm],
   [e_div false] for complex<e_float> *)
Variables (norm : cx T -> T) (quot : cx T -> cx T -> cx T).

Local Notation C := (cx T).
Local Notation cadd := (c_add add).
Local Notation csub := (op_csub zero sub).
Local Notation cmul := (op_cmul add sub mul twice).
Local Notation conj := (c_conj opp).

(* e_float/e_float_complex.h 1071 and 1684 (there the norm is written out) *)
Definition x_abs (z : C) : T := rsqrt (norm z).

(* e_float/e_float_complex.h 1072 and 1685 *)
Definition x_arg (z : C) : T := ratan2 (im z) (re z).

(* e_float/e_float_complex.h 1109-1115 and 1701-1707 *)
Definition x_polar (rho theta : T) : C := mkcx (mul rho (rcos theta)) (mul rho (rsin theta)).

(* e_float/e_float_complex.h 1167-1176 and 1751-1759 *)
Definition x_cos (z : C) : C :=
  mkcx (mul (rcos (re z)) (rcosh (im z))) (opp (mul (rsin (re z)) (rsinh (im z)))).

(* e_float/e_float_complex.h 1178-1187 and 1761-1769 *)
Definition x_cosh (z : C) : C :=
  mkcx (mul (rcos (im z)) (rcosh (re z))) (mul (rsin (im z)) (rsinh (re z))).

(* e_float/e_float_complex.h 1189-1196 and 1771-1777 *)
Definition x_exp (z : C) : C := cr_mul mul (mkcx (rcos (im z)) (rsin (im z))) (rexp (re z)).

(* e_float/e_float_complex.h 1198-1207 and 1779-1788 *)
Definition x_log (z : C) : C := mkcx (halve (rlog (norm z))) (ratan2 (im z) (re z)).

(* e_float/e_float_complex.h 1209-1214 and 1790-1793 *)
Definition x_log10 (z : C) : C := cr_div div (x_log z) ln10.

(* e_float/e_float_complex.h 1250-1253 and 1800-1803: pow(complex, T); the
   product is [rc_mul] for the class template and [er_mul] for complex<e_float>,
   here the latter *)
Definition x_pow_r (z : C) (a : T) : C := x_exp (er_mul mul a (x_log z)).

(* e_float/e_float_complex.h 1255-1258 and 1805-1808: pow(complex, complex) *)
Definition x_pow (z a : C) : C := x_exp (cmul a (x_log z)).

(* e_float/e_float_complex.h 1260-1265 and 1810-1813: pow(T, complex) *)
Definition x_rpow (z : T) (a : C) : C := x_exp (cr_mul mul a (rlog z)).

(* e_float/e_float_complex.h 1267-1276 and 1815-1823 *)
Definition x_sin (z : C) : C :=
  mkcx (mul (rsin (re z)) (rcosh (im z))) (mul (rcos (re z)) (rsinh (im z))).

(* e_float/e_float_complex.h 1278-1287 and 1825-1833 *)
Definition x_sinh (z : C) : C :=
  mkcx (mul (rcos (im z)) (rsinh (re z))) (mul (rcosh (re z)) (rsin (im z))).

(* e_float/e_float_complex.h 1319-1322 and 1866-1877 *)
Definition x_tan (z : C) : C := quot (x_sin z) (x_cos z).

(* e_float/e_float_complex.h 1324-1327 and 1879-1890 *)
Definition x_tanh (z : C) : C := quot (x_sinh z) (x_cosh z).

(* e_float/e_float_complex.h 1289-1317 and 1835-1864 *)
Definition x_sqrt (z : C) : C := c_sqrt add div opp twice halve rsqrt x_abs lt0 z.

(* e_float/e_float_complex.h 1127-1130 and 1714-1717 *)
Definition x_asin (z : C) : C :=
  c_neg opp (conj (x_log (cadd (conj z) (x_sqrt (rc_sub sub opp one (cmul z z)))))).

(* e_float/e_float_complex.h 1120-1125 and 1709-1712; the class template
   subtracts from the real number asin(T(1U)), which is [rc_sub] *)
Definition x_acos (z : C) : C := csub (mkcx pi_half zero) (x_asin z).

(* e_float/e_float_complex.h 1132-1142 and 1719-1727 *)
Definition x_atan (z : C) : C :=
  let w := conj z in
  let p := csub (x_log (rc_sub sub opp one w)) (x_log (rc_add add one w)) in
  mkcx (halve (opp (im p))) (halve (re p)).

(* e_float/e_float_complex.h 1144-1150 and 1729-1735 *)
Definition x_acosh (z : C) : C :=
  let zp := cr_add add z one in
  let zm := cr_sub sub z one in
  x_log (cadd z (cmul zp (x_sqrt (quot zm zp)))).

(* e_float/e_float_complex.h 1152-1155 and 1737-1740; the class template adds
   T(1U) on the left *)
Definition x_asinh (z : C) : C := x_log (cadd z (x_sqrt (cr_add add (cmul z z) one))).

(* e_float/e_float_complex.h 1157-1165 and 1742-1749 *)
Definition x_atanh (z : C) : C :=
  let p := csub (x_log (rc_add add one z)) (x_log (rc_sub sub opp one z)) in
  mkcx (halve (re p)) (halve (im p)).
End Functions.
