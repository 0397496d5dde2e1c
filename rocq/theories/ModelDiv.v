(** * Model, part 2: the double constructor, division, reciprocal, square root.

    Arithmetic on the C++ type double is IEEE-754 binary64 with rounding to
    nearest even, as formalised by Flocq.  ASSUMED: double expressions are
    evaluated operation by operation (no extended precision, no contraction to
    fused multiply-add), as on x86-64/SSE2 without -ffast-math. *)

From Coq Require Import ZArith List Bool Reals.
From Flocq Require Import BinarySingleNaN.
From Verif Require Import Model.
Import ListNotations.
Open Scope Z_scope.

(** ** double *)

(* the C++ type double: IEEE-754 binary64 *)
Definition double : Set := binary_float 53 1024.

(* precision and exponent range of double are admissible for Flocq *)
Definition d_prec : FLX.Prec_gt_0 53 := eq_refl.
Definition d_emax : Prec_lt_emax 53 1024 := eq_refl.

(* double + - * / and std::sqrt, rounding to nearest even; unary minus and
   std::fabs; as used in efx/e_float_efx.cpp 39-117, 1040-1049, 1110-1131 *)
Definition dadd (x y : double) : double := Bplus (prec_gt_0_ := d_prec) (prec_lt_emax_ := d_emax) mode_NE x y.
Definition dsub (x y : double) : double := Bminus (prec_gt_0_ := d_prec) (prec_lt_emax_ := d_emax) mode_NE x y.
Definition dmul (x y : double) : double := Bmult (prec_gt_0_ := d_prec) (prec_lt_emax_ := d_emax) mode_NE x y.
Definition ddiv (x y : double) : double := Bdiv (prec_gt_0_ := d_prec) (prec_lt_emax_ := d_emax) mode_NE x y.
Definition dsqrt (x : double) : double := Bsqrt (prec_gt_0_ := d_prec) (prec_lt_emax_ := d_emax) mode_NE x.
Definition dopp (x : double) : double := Bopp x.
Definition dabs (x : double) : double := Babs x.

(* conversion of an integer to double *)
Definition d_of_Z (n : Z) : double :=
  binary_normalize 53 1024 d_prec d_emax mode_NE n 0 false.

(* the comparison x < y of doubles (false when one of them is NaN) *)
Definition dlt (x y : double) : bool :=
  match Bcompare x y with Some Lt => true | _ => false end.

(* std::numeric_limits<double>::min() * (1.0 + std::numeric_limits<double>::epsilon()):
   (2^52 + 1) * 2^-1074 *)
Definition dbl_min_eps : double :=
  binary_normalize 53 1024 d_prec d_emax mode_NE 4503599627370497 (-1074) false.

(* the conversion (std::uint32_t)(std::uint64_t)d of a finite d >= 0 *)
Definition u32_of_d (x : double) : Z := u32 (u64 (Btrunc x)).

(** ** e_float(double mantissa, std::int64_t exponent): efx/e_float_efx.cpp 33-85 *)

(* 55: while(d > 10.0) { d /= 10.0; ++e; }  ([fuel] bounds the number of steps) *)
Fixpoint scale_down (fuel : nat) (x : double) (e : Z) : double * Z :=
  match fuel with
  | O => (x, e)
  | S f => if dlt (d_of_Z 10) x then scale_down f (ddiv x (d_of_Z 10)) (e + 1) else (x, e)
  end.

(* 56: while(d < 1.0) { d *= 10.0; --e; } *)
Fixpoint scale_up (fuel : nat) (x : double) (e : Z) : double * Z :=
  match fuel with
  | O => (x, e)
  | S f => if dlt x (d_of_Z 1) then scale_up f (dmul x (d_of_Z 10)) (e - 1) else (x, e)
  end.

(* 58-64: while((shift-- % 8) != 0) { d *= 10.0; --e; }; the remainder has the
   sign of the dividend, so a negative shift runs down to -8 *)
Fixpoint shift_loop (fuel : nat) (shift : Z) (x : double) (e : Z) : double * Z :=
  match fuel with
  | O => (x, e)
  | S f => if Z.rem shift 8 =? 0 then (x, e)
           else shift_loop f (shift - 1) (dmul x (d_of_Z 10)) (e - 1)
  end.

(* 74-83: the digit loop *)
Fixpoint double_limbs (n : nat) (x : double) : list Z :=
  match n with
  | O => []
  | S f =>
      let k := u32_of_d x in
      k :: double_limbs f (dmul (dsub x (d_of_Z k)) (d_of_Z mask))
  end.

Section Efx.

Variable d10 : Z.

(* efx/e_float_efx.cpp 33-85.  The scaling loops need fewer than 400 steps for
   every finite mantissa; for an infinite mantissa the first loop does not
   terminate and for NaN the conversions of line 78 are undefined, see
   [ctor_double]. digit_loops is 15/8 + 2 = 3. *)
Definition of_double (m : double) (e : Z) : ef :=
  if dlt (dabs m) dbl_min_eps then
    if e =? 0 then one d10 else zero d10
  else
    let b := dlt m (d_of_Z 0) in
    let x := if negb b then m else dopp m in
    let (x, e) := scale_down 400 x e in
    let (x, e) := scale_up 400 x e in
    let (x, e) := shift_loop 8 (Z.rem e 8) x e in
    let l := double_limbs 3 x in
    mkef (l ++ repeat 0 (Nn d10 - 3)) e b Finite (N d10).

(* the same constructor as seen by a caller: no result for NaN and infinity *)
Definition ctor_double (m : double) (e : Z) : outcome ef :=
  if is_finite m then Defined (of_double m e) else Undefined.

(** ** extract_parts: efx/e_float_efx.cpp 1379-1413 *)

(* 1386-1401: p10 and the increase of the exponent *)
Definition parts_exponent (x : ef) : Z := exp x + digits_minus_one 10 (limb (data x) 0).
Definition parts_p10 (x : ef) : Z := u32 (10 ^ digits_minus_one 10 (limb (data x) 0)).

(* 1403-1412 *)
Definition parts_mantissa (x : ef) : double :=
  let m := d_of_Z mask in
  let s := dadd (dadd (d_of_Z (limb (data x) 0)) (ddiv (d_of_Z (limb (data x) 1)) m))
                (ddiv (ddiv (d_of_Z (limb (data x) 2)) m) m) in
  let s := ddiv s (d_of_Z (parts_p10 x)) in
  if neg x then dopp s else s.

(** ** calculate_inv: efx/e_float_efx.cpp 998-1074 *)

(* 1057-1067: one step of the iteration for digits = dg; [y] is *this *)
Definition inv_step (x y : ef) (dg : Z) : ef :=
  let y := precision d10 y (dg * 2 + 10) in
  let x := precision d10 x (dg * 2 + 10) in
  mul d10 y (sub d10 (two d10) (mul d10 y x)).

(* 1057-1067: for(digits = dg; digits <= tolerance; digits *= 2) *)
Fixpoint inv_loop (fuel : nat) (x y : ef) (dg : Z) : ef :=
  match fuel with
  | O => y
  | S f => if dg <=? tolerance d10 then inv_loop f x (inv_step x y dg) (dg * 2) else y
  end.

(* 1032-1045: the estimate e_float(1.0 / dd, -ne) *)
Definition inv_seed (x : ef) : ef :=
  of_double (ddiv (d_of_Z 1) (parts_mantissa x)) (- parts_exponent x).

(* 998-1074 *)
Definition inv (x0 : ef) : ef :=
  let b := neg x0 in
  let x := set_neg x0 false in
  if iszero x then signed_inf d10 b
  else if isnan x then x
  else if isinf x then zero d10
  else if isone x then (if negb b then one d10 else negate (one d10))
  else
    let y := inv_loop 40 x (inv_seed x) 12 in
    set_prec (set_neg y b) (prec x).

(** ** operator/=: efx/e_float_efx.cpp 789-814 *)

(* 791-795 *)
Definition same_magnitude (u v : ef) : bool :=
  isfinite u && isfinite v && (exp u =? exp v) && (cmp_data (data u) (data v) =? 0).

(* 797-808: note that my_neg at line 801 is already the one of ef::one() *)
Definition div (u v : ef) : ef :=
  if same_magnitude u v then
    let r := one d10 in
    if negb (eqb (neg r) (neg v)) then negate r else r
  else mul d10 u (inv v).

(** ** div_unsigned_long_long: efx/e_float_efx.cpp 898-984 *)

(* 944-962: the quotient loop and the removal of a leading zero limb.
   std::copy moves the limbs 1 .. prec-2 one place to the left, so limb prec-2
   keeps its value; limb prec-1 receives one more quotient digit. *)
Definition div_small (x : ef) (n : Z) : ef :=
  let p := Z.to_nat (prec x) in
  let (q, prev) := div_loop_n (firstn p (data x)) 0 n in
  let l := q ++ skipn p (data x) in
  if limb l 0 =? 0 then
    let l' := firstn (p - 2) (skipn 1 l) ++ skipn (p - 2) l in
    mkef (upd (p - 1) (u32 (u64 (prev * mask) / n)) l') (exp x - 8) (neg x) (cls x) (prec x)
  else mkef l (exp x) (neg x) (cls x) (prec x).

(* 898-984 *)
Definition div_ull (x0 : ef) (n : Z) : ef :=
  let b := neg x0 in
  let x := set_neg x0 false in
  if isnan x then x
  else if isinf x then signed_inf d10 b
  else if n =? 0 then
    if iszero x then value_nan d10 else signed_inf d10 (isneg x)
  else if iszero x then x
  else if n >=? mask then div x0 (of_ull d10 n)
  else
    let y := if n >? 1 then div_small x n else x in
    if iszero y then zero d10 else set_neg y b.

(* e_float_base.cpp 140-152; n = LLONG_MIN is an overflow of -n *)
Definition div_sll (x : ef) (n : Z) : outcome ef :=
  if n =? sll_min then Undefined
  else
    let b := n <? 0 in
    let y := div_ull x (if negb b then u64 n else u64 (- n)) in
    Defined (if b then negate y else y).

(** ** calculate_sqrt: efx/e_float_efx.cpp 1076-1168 *)

(* 1146: (e_float * std::int32_t) is mul_signed_long_long; the case Undefined
   does not occur for the constant 2 *)
Definition mul_int (x : ef) (n : Z) : ef :=
  match mul_sll d10 x n with Defined r => r | Undefined => value_nan d10 end.

(* 1141-1149: new values of vi, iteration_term and *this *)
Definition sqrt_step (x s v : ef) (dg : Z) : ef * ef * ef :=
  let s := precision d10 s (dg * 2 + 10) in
  let v := precision d10 v (dg * 2 + 10) in
  let v := add d10 v (mul d10 v (add d10 (negate (mul_int (mul d10 s v) 2)) (one d10))) in
  let t := mul d10 v (add d10 (negate (mul d10 s s)) x) in
  (add d10 s t, v, t).

(* 1137-1163 *)
Fixpoint sqrt_loop (fuel : nat) (x s v : ef) (dg : Z) : ef :=
  match fuel with
  | O => s
  | S f =>
      if dg <=? tolerance d10 then
        let '(s', v', t) := sqrt_step x s v dg in
        if (dg >? tolerance d10 / 4) && (order s' - order t >? tolerance d10 / 2) then s'
        else sqrt_loop f x s' v' (dg * 2)
      else s
  end.

(* 1093-1122: mantissa, exponent after forcing an even exponent *)
Definition sqrt_parts (x : ef) : double * Z :=
  let dd := parts_mantissa x in
  let ne := parts_exponent x in
  if Z.rem ne 2 =? 0 then (dd, ne) else (ddiv dd (d_of_Z 10), ne + 1).

(* 1076-1168 *)
Definition sqrt (x : ef) : ef :=
  if isneg x || negb (isfinite x) then value_nan d10
  else if iszero x || isone x then x
  else
    let (dd, ne) := sqrt_parts x in
    let sqd := dsqrt dd in
    let s := of_double sqd (Z.quot ne 2) in
    let v := of_double (ddiv (ddiv (d_of_Z 1) (d_of_Z 2)) sqd) (Z.quot (- ne) 2) in
    set_prec (sqrt_loop 40 x s v 12) (prec x).

End Efx.

(** ** Decimal order: efx/e_float_efx.cpp 1726-1740 *)

(* 1736: std::numeric_limits<double>::epsilon() and the literal 0.9 *)
Definition dbl_eps : double := binary_normalize 53 1024 d_prec d_emax mode_NE 1 (-52) false.
Definition dbl_09 : double := binary_normalize 53 1024 d_prec d_emax mode_NE 8106479329266893 (-53) false.

(* 1726-1740; std::log10 is a parameter because the language does not define
   its last digits.  [Model.order] is the result with an exact logarithm. *)
Definition order_log (log10 : double -> double) (x : ef) : Z :=
  if negb (isfinite x) || (limb (data x) 0 =? 0) then 0
  else exp x + Btrunc (dadd (log10 (d_of_Z (limb (data x) 0))) (dmul dbl_eps dbl_09)).
