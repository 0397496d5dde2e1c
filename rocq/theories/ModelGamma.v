(** * Model of the gamma function and the Pochhammer symbol: src/functions/gamma *)

From Coq Require Import ZArith List Bool.
From Verif Require Import Model ModelDiv ModelPow ModelStr ModelGen ModelElem ModelFact.
Import ListNotations.
Open Scope Z_scope.

(** The operations the templates use: T is the type of the argument, TR the type of its
    real part (T = TR = e_float, or complex<e_float> and e_float). *)
Record gops (T TR : Type) := mkgops {
  g_real : T -> TR;                 (* ef::real *)
  g_of : TR -> T;                   (* conversion of a result *)
  r_isfinite : TR -> bool; r_isneg : TR -> bool; r_isint : TR -> bool; r_iszero : TR -> bool;
  r_to64 : TR -> io Z;              (* ef::to_int64 *)
  r_less : TR -> Z -> bool;         (* rx < TR(n) *)
  r_nan : TR;                       (* quiet_NaN() *)
  g_fact : Z -> io TR;              (* ef::factorial *)
  g_opp : T -> T; g_mul : T -> T -> T; g_div : T -> T -> T;
  g_add_n : T -> Z -> T;            (* xx += n for an int32_t n *)
  g_inc : T -> T;                   (* x + one() *)
  g_dec : T -> T;                   (* xx -= TR(1U) *)
  g_from : Z -> T -> T;             (* n - x for an int32_t n *)
  g_plus : Z -> T -> T;             (* n + x for an int32_t n *)
  g_sin : T -> T;
  g_pi_mul : T -> T;                (* pi() * x *)
  g_pi_div : T -> T;                (* pi() / x *)
  g_npi_div : T -> T;               (* -pi() / x *)
  g_small : T -> bool;              (* small_arg(abs(xx)) *)
  g_series : T -> T;                (* gamma.cpp 128-133: one() / the series of 1/gamma at 0 *)
  g_stirling : T -> io T            (* gamma.cpp 150-173: the exponential of the asymptotic series *)
}.
Arguments g_real {T TR}. Arguments g_of {T TR}. Arguments r_isfinite {T TR}. Arguments r_isneg {T TR}. Arguments r_isint {T TR}. Arguments r_iszero {T TR}.
Arguments r_to64 {T TR}. Arguments r_less {T TR}. Arguments r_nan {T TR}. Arguments g_fact {T TR}. Arguments g_opp {T TR}. Arguments g_mul {T TR}. Arguments g_div {T TR}.
Arguments g_add_n {T TR}. Arguments g_inc {T TR}. Arguments g_dec {T TR}. Arguments g_from {T TR}. Arguments g_plus {T TR}. Arguments g_sin {T TR}. Arguments g_pi_mul {T TR}.
Arguments g_pi_div {T TR}. Arguments g_npi_div {T TR}. Arguments g_small {T TR}. Arguments g_series {T TR}. Arguments g_stirling {T TR}.

Section Gamma.
Context {T TR : Type}.
Variable o : gops T TR.
(* gamma.cpp 138: static_cast<std::int32_t>(240.0 * Util::DigitScale()); gamma.cpp 111: the
   number of entries of the table of factorials *)
Variables (min_arg_n table_size : Z).

(* elementary/elementary_math.cpp 144-152 *)
Definition to_int32 (x : TR) : io Z := bind (r_to64 o x) (fun n => Ok (Z.min (Z.max n (-2147483648)) 2147483647)).

(* gamma.cpp 175-181: the argument and G after k rounds *)
Fixpoint down (k : nat) (xx G : T) : T * T :=
  match k with
  | O => (xx, G)
  | S j => let xx' := g_dec o xx in down j xx' (g_div o G xx')
  end.

(* gamma.cpp 185 *)
Definition finish (b_neg : bool) (xx G : T) : T :=
  if negb b_neg then G else g_npi_div o (g_mul o (g_mul o xx G) (g_sin o (g_pi_mul o xx))).

(* gamma.cpp 120-185 *)
Definition gamma_general (b_neg : bool) (x : T) : io T :=
  let xx := if negb b_neg then x else g_opp o x in
  if g_small o xx then Ok (finish b_neg xx (g_series o xx))
  else
    let rx := g_real o xx in
    bind (if r_less o rx min_arg_n then bind (to_int32 rx) (fun t => Ok (min_arg_n - t + 1)) else Ok 0) (fun n_recur =>
    let xx := g_add_n o xx n_recur in
    bind (g_stirling o xx) (fun G =>
    let '(xx, G) := down (Z.to_nat n_recur) xx G in
    Ok (finish b_neg xx G))).

(* gamma.cpp 66-186 *)
Definition gamma (x : T) : io T :=
  let rx := g_real o x in
  if negb (r_isfinite o rx) then Ok x
  else
    let b_neg := r_isneg o rx in
    if r_isint o rx then
      if b_neg || r_iszero o rx then Ok (g_of o (r_nan o))
      else
        bind (r_to64 o rx) (fun nx =>
        if u64 nx <? table_size then bind (g_fact o (nx - 1)) (fun f => Ok (g_of o f))
        else gamma_general b_neg x)
    else gamma_general b_neg x.

(* gamma.cpp 188-213, for an int32_t n; -n overflows for the smallest n *)
Definition gamma_near_n (n : Z) (x : T) : io T :=
  if n >=? 0 then gamma (g_plus o n x)
  else if n =? -2147483648 then UB
  else
    let nn := - n in
    let b_neg := negb (nn mod 2 =? 0) in
    bind (gamma (g_inc o (g_from o nn x))) (fun g =>
    let Gn := g_pi_div o (g_mul o g (g_sin o (g_pi_mul o x))) in
    Ok (if negb b_neg then Gn else g_opp o Gn)).

(* gamma_util.cpp 13-26, for T = TR = e_float; [fabs] is ef::fabs *)
Definition gamma_plus_minus (fabs : T -> T) (x : T) : io (T * T) :=
  let b := r_isneg o (g_real o x) in
  let a := fabs x in
  bind (gamma a) (fun p =>
  let n := g_npi_div o (g_mul o (g_mul o a p) (g_sin o (g_pi_mul o a))) in
  Ok (if b then (n, p) else (p, n))).

(* pochhammer.cpp 17-58, for a uint32_t n *)
Definition pochhammer_n (one : T) (plus_r : T -> Z -> T) (x : T) (n : Z) : io T :=
  if n <? 50 then Ok (pochhammer one (g_mul o) (fun t => plus_r t 1) x (Z.to_nat n))
  else bind (gamma (plus_r x n)) (fun a => bind (gamma x) (fun b => Ok (g_div o a b))).

End Gamma.

(** ** e_float *)

Section FixedDigits.
Variable d10 : Z.
Variable env : env.
Variable (fact_series : Z -> io ef).
(* the coefficients of the series of 1/gamma (gamma.cpp 26-61) and the Bernoulli numbers *)
Variables (coef : list ef) (bernoulli : Z -> io ef).

Definition io_of {A : Type} (x : outcome A) : io A := match x with Defined a => Ok a | Undefined => UB end.

(* gamma.cpp 128-133 *)
Definition ef_series (xx : ef) : ef := div d10 (one d10) (coefficient_sum (add d10) (mul d10) xx xx (of_ull d10 0) coef).

(* gamma.cpp 155-169 *)
Fixpoint stirling_loop (fuel : nat) (n2 : Z) (p x2 sum : ef) : io ef :=
  match fuel with
  | O => Ok sum
  | S f =>
      let p := mul d10 p x2 in
      bind (bernoulli n2) (fun b =>
      let term := div d10 (mul d10 b p) (of_sll d10 (n2 * (n2 - 1))) in
      if (n2 >? 20) && (order (fabs term) - order (fabs sum) <? - tolerance d10) then Ok sum
      else stirling_loop f (n2 + 2) p x2 (add d10 sum term))
  end.

(* gamma.cpp 150-173; the loop runs over n2 = 4, 6, ..., 9998 *)
Definition ef_stirling (xx : ef) : io ef :=
  let p := div d10 (one d10) xx in
  let x2 := mul d10 p p in
  bind (bernoulli 2) (fun b2 =>
  bind (stirling_loop 4998 4 p x2 (mul d10 (div_int d10 b2 2) p)) (fun sum =>
  bind (io_of (log d10 env (mul_int d10 (c_pi env) 2))) (fun l2 =>
  bind (io_of (log d10 env xx)) (fun lx =>
  io_of (exp d10 env (add d10 (add d10 (sub d10 (mul d10 (sub d10 xx (half d10)) lx) xx) (div_int d10 l2 2)) sum)))))).

(* xx += n and the like, for integers that are not the smallest one *)
Definition ef_add_n (x : ef) (n : Z) : ef := match add_sll d10 x n with Defined r => r | Undefined => value_nan d10 end.

(* gamma.cpp 215-225 *)
Definition ef_ops : gops ef ef := mkgops ef ef (fun x => x) (fun x => x) isfinite isneg (isint d10) iszero (fun x => io_of (extract_sll d10 x))
  (fun x n => op_lt x (of_sll d10 n)) (value_nan d10) (factorial d10 fact_series) negate (mul d10) (div d10) ef_add_n
  (fun x => add d10 x (one d10)) (fun x => sub d10 x (of_ull d10 1)) (fun n x => sub d10 (of_sll d10 n) x) (fun n x => add d10 (of_sll d10 n) x)
  (sin d10 env) (mul d10 (c_pi env)) (div d10 (c_pi env)) (div d10 (negate (c_pi env))) (small_arg d10) ef_series ef_stirling.

(** ** complex<e_float>: the elementary functions of complex numbers are parameters *)

Variables (c_small : cx ef -> bool) (c_sin c_series : cx ef -> cx ef) (c_stirling : cx ef -> io (cx ef)).

Definition complex_ops : gops (cx ef) ef := mkgops (cx ef) ef re (fun x => mkcx x (zero d10)) isfinite isneg (isint d10) iszero (fun x => io_of (extract_sll d10 x))
  (fun x n => op_lt x (of_sll d10 n)) (value_nan d10) (factorial d10 fact_series) (c_neg negate) (ce_mul d10 false) (ce_div d10 false)
  (fun z n => mkcx (ef_add_n (re z) n) (im z)) (fun z => cr_add (add d10) z (one d10)) (fun z => cr_sub (sub d10) z (of_ull d10 1))
  (fun n z => rc_sub (sub d10) negate (of_sll d10 n) z) (fun n z => rc_add (add d10) (of_sll d10 n) z)
  c_sin (er_mul (mul d10) (c_pi env)) (ce_rdiv d10 (c_pi env)) (ce_rdiv d10 (negate (c_pi env))) c_small c_series c_stirling.

(* gamma.cpp 227-237 *)
Definition gamma_complex (min_arg_n table_size : Z) (z : cx ef) : io (cx ef) :=
  if iszero (im z) then bind (gamma ef_ops min_arg_n table_size (re z)) (fun g => Ok (mkcx g (zero d10)))
  else gamma complex_ops min_arg_n table_size z.

End FixedDigits.
