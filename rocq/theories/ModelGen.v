(** * Model, part 5: templates over an arbitrary type of numbers.

    The class template ef::complex<T>, the Pochhammer symbol, the root finders,
    the quadrature and difference rules and the interpolation of utility/ are
    written for any number type; the model takes the operations of that type as
    parameters.  SIMPLIFIED: the operations are functions of the values of
    their operands; where the code tests "this == &other" the model has a
    parameter [same], which tells whether both are the same object. *)

From Coq Require Import ZArith List Bool.
From Verif Require Import Model ModelDiv ModelPow.
Import ListNotations.
Open Scope Z_scope.

(** ** Complex numbers *)

(* e_float/e_float_complex.h 308-310 and 1638-1640: the data members *)
Record cx (T : Type) := mkcx { re : T; im : T }.
Arguments mkcx {T} _ _.
Arguments re {T} _.
Arguments im {T} _.

Section Complex.
Context {T : Type}.
(* zero is T(0), one is T(1) and T(1U), twice x is x * 2U and halve x is x / 2U,
   ltabs x y is fabs(x) < fabs(y), inv is calculate_inv *)
Variables (zero one : T) (add sub mul div : T -> T -> T) (opp twice halve inv : T -> T) (ltabs : T -> T -> bool).

Local Notation C := (cx T).

(* e_float/e_float_complex.h 226-233 and 1487-1494: operator+= *)
Definition c_add (z w : C) : C := mkcx (add (re z) (re w)) (add (im z) (im w)).

(* e_float/e_float_complex.h 235-250 and 1496-1511: operator-= *)
Definition c_sub (same : bool) (z w : C) : C :=
  if same then mkcx zero zero else mkcx (sub (re z) (re w)) (sub (im z) (im w)).

(* e_float/e_float_complex.h 252-269 and 1513-1530: operator*= *)
Definition c_mul (same : bool) (z w : C) : C :=
  if same then mkcx (sub (mul (re z) (re z)) (mul (im z) (im z))) (twice (mul (re z) (im z)))
  else mkcx (sub (mul (re z) (re w)) (mul (im z) (im w))) (add (mul (re z) (im w)) (mul (im z) (re w))).

(* e_float/e_float_complex.h 271-305: operator/= of the class template *)
Definition c_div (same : bool) (z w : C) : C :=
  if same then mkcx one zero
  else if ltabs (re w) (im w) then
    let q := div (re w) (im w) in
    let den := add (mul (re w) q) (im w) in
    mkcx (div (add (mul (re z) q) (im z)) den) (div (sub (mul (im z) q) (re z)) den)
  else
    let q := div (im w) (re w) in
    let den := add (mul (im w) q) (re w) in
    mkcx (div (add (mul (im z) q) (re z)) den) (div (add (mul (opp (re z)) q) (im z)) den).

(* e_float/e_float_complex.h 1686: norm of complex<e_float> *)
Definition e_norm (z : C) : T := add (mul (re z) (re z)) (mul (im z) (im z)).

(* e_float/e_float_complex.h 1532-1551: operator/= of complex<e_float> *)
Definition e_div (same : bool) (z w : C) : C :=
  if same then mkcx one zero
  else
    let r := inv (e_norm w) in
    mkcx (mul (add (mul (re z) (re w)) (mul (im z) (im w))) r) (mul (sub (mul (im z) (re w)) (mul (re z) (im w))) r).

(* e_float/e_float_complex.h 815 and 1648: unary minus *)
Definition c_neg (z : C) : C := mkcx (opp (re z)) (opp (im z)).

(* e_float/e_float_complex.h 818-853: the free operators of the template
   complex op complex are the unaliased forms above; the ones of complex<e_float>
   (1651-1654) copy the first operand and use the compound assignments *)
Definition op_cadd (u v : C) : C := c_add u v.
Definition op_csub (u v : C) : C := c_sub false u v.
Definition op_cmul (u v : C) : C := c_mul false u v.
Definition op_cdiv (u v : C) : C := c_div false u v.
Definition op_ediv (u v : C) : C := e_div false u v.

(* e_float/e_float_complex.h 855-858 and 1657-1660: complex op T *)
Definition cr_add (u : C) (v : T) : C := mkcx (add (re u) v) (im u).
Definition cr_sub (u : C) (v : T) : C := mkcx (sub (re u) v) (im u).
Definition cr_mul (u : C) (v : T) : C := mkcx (mul (re u) v) (mul (im u) v).
Definition cr_div (u : C) (v : T) : C := mkcx (div (re u) v) (div (im u) v).

(* e_float/e_float_complex.h 860-862: T op complex (1663-1665 for e_float: the products have
   their factors exchanged, see [er_mul]) *)
Definition rc_add (u : T) (v : C) : C := mkcx (add u (re v)) (im v).
Definition rc_sub (u : T) (v : C) : C := mkcx (sub u (re v)) (opp (im v)).
Definition rc_mul (u : T) (v : C) : C := mkcx (mul u (re v)) (mul u (im v)).

(* e_float/e_float_complex.h 1665: e_float * complex<e_float> *)
Definition er_mul (u : T) (v : C) : C := mkcx (mul (re v) u) (mul (im v) u).

(* e_float/e_float_complex.h 864-890: T / complex of the class template *)
Definition rc_div (u : T) (v : C) : C :=
  if ltabs (re v) (im v) then
    let q := div (re v) (im v) in
    let den := add (mul (re v) q) (im v) in
    mkcx (div (mul u q) den) (div (opp u) den)
  else
    let q := div (im v) (re v) in
    let den := add (mul (im v) q) (re v) in
    mkcx (div u den) (div (mul (opp u) q) den).

(* e_float/e_float_complex.h 1666-1672: e_float / complex<e_float> *)
Definition re_div (u : T) (v : C) : C :=
  let n := e_norm v in
  mkcx (div (mul u (re v)) n) (div (opp (mul u (im v))) n).

(* e_float/e_float_complex.h 1074-1094: norm of the class template *)
Definition c_norm (z : C) : T :=
  if ltabs (re z) (im z) then
    let q := div (re z) (im z) in mul (mul (im z) (im z)) (add one (mul q q))
  else
    let q := div (im z) (re z) in mul (mul (re z) (re z)) (add one (mul q q)).

(* e_float/e_float_complex.h 1096-1099 and 1688-1691: conj *)
Definition c_conj (z : C) : C := mkcx (opp (im z)) (re z).

(* e_float/e_float_complex.h 1101-1107 and 1693-1699: proj *)
Definition c_proj (z : C) : C :=
  let h := halve (add (c_norm z) one) in mkcx (div (re z) h) (div (im z) h).
(* e_float/e_float_complex.h 1693-1699: proj of complex<e_float> *)
Definition e_proj (z : C) : C :=
  let h := twice (inv (add (e_norm z) one)) in mkcx (mul (re z) h) (mul (im z) h).

(* e_float/e_float_complex.h 1795-1798: pow(complex<e_float>, std::int64_t),
   which is detail/e_float_detail_pown_template.h; 1216-1248: pow(complex<T>, int)
   is the same algorithm.  SIMPLIFIED: the latter takes an int and divides
   T(1U) by the complex power (see [rc_div]), the model takes a 64 bit exponent *)
Definition c_pow (div1 : C -> C -> C) (z : C) (p : Z) : outcome C :=
  pown_gen (mkcx one zero) (mkcx one zero) op_cmul (fun x => c_mul true x x) div1 z p.

(* e_float/e_float_complex.h 1289-1317 and 1835-1864: sqrt; [rsqrt] is the
   square root of T, [cabs] is abs(z), [lt0 x] is x < 0 *)
Definition c_sqrt (rsqrt : T -> T) (cabs : C -> T) (lt0 : T -> bool) (z : C) : C :=
  let fr := if lt0 (re z) then opp (re z) else re z in
  let s := rsqrt (halve (add fr (cabs z))) in
  if lt0 (re z) then
    let fi := if lt0 (im z) then opp (im z) else im z in
    mkcx (div fi (twice s)) (if lt0 (im z) then opp s else s)
  else mkcx s (div (im z) (twice s)).

(* e_float/e_float_complex.h 1684: abs of complex<e_float>; 1071: abs of the
   class template *)
Definition e_abs (rsqrt : T -> T) (z : C) : T := rsqrt (e_norm z).
Definition c_abs (rsqrt : T -> T) (z : C) : T := rsqrt (c_norm z).

(** ** Pochhammer symbol *)

(* functions/gamma/pochhammer.cpp 39-49: the loop i = 1, ..., n-1; [inc x] is
   term += TR(1U) *)
Fixpoint poch_loop (inc : T -> T) (k : nat) (val term : T) : T :=
  match k with
  | O => val
  | S j => let term' := inc term in poch_loop inc j (mul val term') term'
  end.

(* functions/gamma/pochhammer.cpp 17-58 for n < 50 (larger n uses the gamma
   function: pochhammer_n of ModelGamma.v) *)
Definition pochhammer (inc : T -> T) (x : T) (n : nat) : T :=
  match n with
  | O => one
  | S O => x
  | S m => poch_loop inc m x x
  end.

End Complex.

(** ** Root finding, quadrature, differences, interpolation *)

Section Analysis.
Context {T : Type}.
(* halve x is x / 2, ltb and leb are operator< and operator<=, [of_int] is T(n)
   for an int n *)
Variables (zero one half : T) (add sub mul div : T -> T -> T) (opp halve : T -> T)
          (ltb leb : T -> T -> bool) (iszero : T -> bool) (of_int : Z -> T).

(* utility/util_find_root_bisect.h 67-92: the loop; None: no convergence *)
Fixpoint bisect_loop (f : T -> T) (eps : T) (fuel : nat) (rt dx : T) : option T :=
  match fuel with
  | O => None
  | S k =>
      let dx := halve dx in
      let x_mid := add rt dx in
      let f_mid := f x_mid in
      let rt := if leb f_mid zero then x_mid else rt in
      let dx_abs := if ltb dx zero then opp dx else dx in
      if ltb dx_abs eps || iszero f_mid then Some rt else bisect_loop f eps k rt dx
  end.

(* utility/util_find_root_bisect.h 30-93: the result of operation() and what
   success() returns afterwards *)
Definition find_root_bisect (f : T -> T) (lo hi eps : T) : T * bool :=
  let fl := f lo in
  if leb zero (mul fl (f hi)) then (zero, true)
  else
    let '(dx, rt) := if ltb fl zero then (sub hi lo, lo) else (sub lo hi, hi) in
    match bisect_loop f eps 2048 rt dx with
    | Some r => (r, true)
    | None => (zero, false)
    end.

(* utility/util_find_root_newton_raphson.h 45-66: the loop; [fd x] is the pair
   of function and derivative *)
Fixpoint newton_loop (fd : T -> T * T) (lo hi eps : T) (fuel : nat) (x : T) : T * bool :=
  match fuel with
  | O => (x, true)
  | S k =>
      let '(f, d) := fd x in
      let dx := div f d in
      let x := sub x dx in
      if ltb (mul (sub lo x) (sub x hi)) zero then (x, false)
      else
        let delta := if ltb dx zero then opp dx else dx in
        if ltb delta eps then (x, true) else newton_loop fd lo hi eps k x
  end.

(* utility/util_find_root_newton_raphson.h 39-69 *)
Definition find_root_newton (fd : T -> T * T) (lo hi eps : T) : T * bool :=
  let '(x, ok) := newton_loop fd lo hi eps 256 (halve (add lo hi)) in
  if ok then (x, true) else (zero, false).

(* utility/util_trapezoid.h 58-63: sum over j = 1, ..., n *)
Definition trap_sum (f : T -> T) (a h : T) (n : nat) : T :=
  fold_left (fun s j => add s (f (add a (mul (of_int (2 * Z.of_nat j - 1)) h)))) (seq 1 n) zero.

(* utility/util_trapezoid.h 52-77: the loop over k with n = 2^k; at k = 30 the
   expression j * 2 overflows an int for j = 2^30 *)
Fixpoint trap_loop (f : T -> T) (a eps : T) (fuel k : nat) (h I : T) : outcome (T * bool) :=
  match fuel with
  | O => Defined (I, false)
  | S fuel' =>
      if (k =? 30)%nat then Undefined
      else
        let h := mul h half in
        let I1 := add (mul I half) (mul h (trap_sum f a h (2 ^ k))) in
        let ratio := div I I1 in
        let delta := if ltb one ratio then sub ratio one else sub one ratio in
        if (3 <? k)%nat && ltb delta eps then Defined (I1, true)
        else trap_loop f a eps fuel' (S k) h I1
  end.

(* utility/util_trapezoid.h 39-80: operation() and success() (the flag
   is false before the first call: utility/util_function_operation.h) *)
Definition trapezoid (f : T -> T) (a b eps : T) : outcome (T * bool) :=
  let h := div (sub b a) (of_int 1) in
  trap_loop f a eps 31 0 h (mul (add (f a) (f b)) (mul h half)).

(* utility/util_function_derivative.h 35-54 *)
Definition derivative (f : T -> T) (x dx1 : T) : T :=
  let dx2 := mul dx1 (of_int 2) in
  let dx3 := mul dx1 (of_int 3) in
  let m1 := div (sub (f (add x dx1)) (f (sub x dx1))) (of_int 2) in
  let m2 := div (sub (f (add x dx2)) (f (sub x dx2))) (of_int 4) in
  let m3 := div (sub (f (add x dx3)) (f (sub x dx3))) (of_int 6) in
  div (add (sub (mul (of_int 15) m1) (mul (of_int 6) m2)) m3) (mul (of_int 10) dx1).

(* std::lower_bound with operator< of utility/util_point.h: on a sorted
   sequence, the first point whose x is not less; [prev] is the point before *)
Fixpoint lower_bound (x : T) (prev : T * T) (l : list (T * T)) : option ((T * T) * (T * T)) :=
  match l with
  | [] => None
  | p :: t => if ltb (fst p) x then lower_bound x p t else Some (prev, p)
  end.

(* utility/util_interpolate.h 25-56; SIMPLIFIED: when lower_bound finds the
   first point or nothing the code would dereference outside of the vector,
   which the two tests before exclude *)
Definition interpolate (x : T) (points : list (T * T)) : outcome T :=
  match points with
  | [] => Defined zero
  | p :: t =>
      if leb x (fst p) || (length points =? 1)%nat then Defined (snd p)
      else if leb (fst (last t p)) x then Defined (snd (last t p))
      else
        match (if ltb (fst p) x then lower_bound x p t else None) with
        | Some (l, r) =>
            Defined (add (snd l) (div (mul (sub x (fst l)) (sub (snd r) (snd l))) (sub (fst r) (fst l))))
        | None => Undefined
        end
  end.

(* utility/util_coefficient_expansion.h 25-32 used with std::accumulate over
   the coefficients: the state is the pair (sum, x_expand_pow_k) *)
Definition coefficient_sum (x init : T) (s0 : T) (c : list T) : T :=
  fst (fold_left (fun '(s, p) ck => (add s (mul ck p), mul p x)) c (s0, init)).

(* utility/util_alternating_sum.h 24-29 used with std::accumulate *)
Definition alternating (b : bool) (init : T) (s0 : T) (c : list T) : T :=
  fst (fold_left (fun '(s, b) ck => (add (if negb b then add s ck else sub s ck) init, negb b)) c (s0, b)).

End Analysis.

(** ** Generalised hypergeometric series *)

(* functions/elementary/elementary_math.cpp 16 *)
Definition max_iteration : Z := 10000.

Section Hyper.
Context {T : Type}.
(* div_n x n is x /= n for an int n, inc x is ++x, [small t s] is the test
   t.order() - s.order() < -tolerance() *)
Variables (one : T) (add mul div : T -> T -> T) (div_n : T -> Z -> T) (inc : T -> T) (small : T -> T -> bool).

(* functions/elementary/elementary_hyper_g.cpp 29-48: the loop all functions
   share; [next n s] updates the running products, [term s] is the term built
   from them; None stands for NaN.  The fuel is max_iteration - 2 *)
Fixpoint series {S : Type} (next : Z -> S -> S) (term : S -> T) (fuel : nat) (n : Z) (st : S) (sum : T) : option T :=
  match fuel with
  | O => None
  | Datatypes.S f =>
      let st := next n st in
      let t := term st in
      if (20 <? n) && small t sum then Some sum
      else series next term f (n + 1) st (add sum t)
  end.

(* functions/elementary/elementary_hyper_g.cpp 23-30: the loop starts at n = 2 *)
Definition series_from {S : Type} (next : Z -> S -> S) (term : S -> T) (st : S) : option T :=
  series next term (Z.to_nat (max_iteration - 2)) 2 st (add one (term st)).

(* functions/elementary/elementary_hyper_g.cpp 32-33 *)
Definition next_x (x : T) (n : Z) (xp : T) : T := div_n (mul xp x) n.

(* functions/elementary/elementary_hyper_g.cpp 71: pochham_b *= ++bp; the pair
   is (pochham_b, bp) *)
Definition next_p (p : T * T) : T * T := let b := inc (snd p) in (mul (fst p) b, b).

(* functions/elementary/elementary_hyper_g.cpp 17-49 *)
Definition hyper_0f0 (x : T) : option T :=
  series_from (fun n xp => next_x x n xp) (fun xp => xp) x.

(* functions/elementary/elementary_hyper_g.cpp 51-89 *)
Definition hyper_0f1 (b x : T) : option T :=
  series_from (fun n '(xp, pb) => (next_x x n xp, next_p pb))
              (fun '(xp, pb) => div xp (fst pb)) (x, (b, b)).

(* functions/elementary/elementary_hyper_g.cpp 91-130 *)
Definition hyper_1f0 (a x : T) : option T :=
  series_from (fun n '(xp, pa) => (next_x x n xp, next_p pa))
              (fun '(xp, pa) => mul (fst pa) xp) (x, (a, a)).

(* functions/elementary/elementary_hyper_g.cpp 132-173 *)
Definition hyper_1f1 (a b x : T) : option T :=
  series_from (fun n '(xp, pa, pb) => (next_x x n xp, next_p pa, next_p pb))
              (fun '(xp, pa, pb) => mul (div (fst pa) (fst pb)) xp) (x, (a, a), (b, b)).

(* functions/elementary/elementary_hyper_g.cpp 175-215 *)
Definition hyper_2f0 (a b x : T) : option T :=
  series_from (fun n '(xp, pa, pb) => (next_x x n xp, next_p pa, next_p pb))
              (fun '(xp, pa, pb) => mul (mul (fst pa) (fst pb)) xp) (x, (a, a), (b, b)).

(* functions/elementary/elementary_hyper_g.cpp 217-261 *)
Definition hyper_2f1 (a b c x : T) : option T :=
  series_from (fun n '(xp, pa, pb, pc) => (next_x x n xp, next_p pa, next_p pb, next_p pc))
              (fun '(xp, pa, pb, pc) => mul (div (mul (fst pa) (fst pb)) (fst pc)) xp) (x, (a, a), (b, b), (c, c)).

(* std::accumulate(first, last, ef::one(), std::multiplies<e_float>()) *)
Definition product (l : list T) : T := fold_left mul l one.

(* functions/elementary/elementary_hyper_g.cpp 290-298 for one of the two lists:
   the pair is (pochham_a, ap) *)
Definition next_l (p : T * list T) : T * list T :=
  let l := map (fun y => add one y) (snd p) in (mul (fst p) (product l), l).

(* functions/elementary/elementary_hyper_g.cpp 263-316 *)
Definition hyper_pfq (a b : list T) (x : T) : option T :=
  series_from (fun n '(xp, pa, pb) => (next_x x n xp, next_l pa, next_l pb))
              (fun '(xp, pa, pb) => mul (div (fst pa) (fst pb)) xp) (x, (product a, a), (product b, b)).

End Hyper.

(** ** complex<e_float> *)

Section ComplexFloat.
Variable d10 : Z.

(* x * 2U and x / 2U of e_float: e_float.h, the operators with unsigned *)
Definition twice_ef (x : ef) : ef := mul_ull d10 x 2.
Definition halve_ef (x : ef) : ef := div_ull d10 x 2.

(* e_float/e_float_complex.h 1487-1551: the compound assignments of
   complex<e_float> *)
Definition ce_add : cx ef -> cx ef -> cx ef := c_add (add d10).
Definition ce_sub : bool -> cx ef -> cx ef -> cx ef := c_sub (zero d10) (sub d10).
Definition ce_mul : bool -> cx ef -> cx ef -> cx ef := c_mul (add d10) (sub d10) (mul d10) twice_ef.
Definition ce_norm : cx ef -> ef := e_norm (add d10) (mul d10).
Definition ce_div : bool -> cx ef -> cx ef -> cx ef := e_div (zero d10) (one d10) (add d10) (sub d10) (mul d10) (inv d10).

(* e_float/e_float_complex.h 1666-1672 *)
Definition ce_rdiv : ef -> cx ef -> cx ef := re_div (add d10) (mul d10) (div d10) negate.

(* e_float/e_float_complex.h 1835-1864; z.real() < 0U compares with e_float(0U) *)
Definition ce_sqrt : cx ef -> cx ef :=
  c_sqrt (add d10) (div d10) negate twice_ef halve_ef (sqrt d10) (e_abs (add d10) (mul d10) (sqrt d10)) (fun x => op_lt x (zero d10)).

(* functions/gamma/pochhammer.cpp 17-58 for e_float and n < 50: term += e_float(1U) *)
Definition pochhammer_ef (x : ef) (n : nat) : ef :=
  pochhammer (one d10) (mul d10) (fun t => add d10 t (one d10)) x n.

(* functions/elementary/elementary_hyper_g.cpp 35-43: the stopping test *)
Definition small_ef (t s : ef) : bool := order t - order s <? - tolerance d10.
End ComplexFloat.
