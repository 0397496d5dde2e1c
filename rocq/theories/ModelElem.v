(** * Model of the elementary functions
      (libs/e_float/src/functions/elementary/elementary_trig.cpp,
      elementary_trans.cpp, elementary_math.cpp, elementary_hyper_g.cpp).

    Paths are relative to /repo/libs/e_float/src/functions.  The virtual
    predicates i_have_my_own_... all return false for the efx back end
    (e_float/e_float_base.h 127-149), so the branches they guard are left out. *)

From Coq Require Import ZArith List Bool.
From Verif Require Import Model ModelDiv ModelPow ModelGen.
Import ListNotations.
Open Scope Z_scope.

(** What the functions take from elsewhere: the constants that are read from
    decimal literals, and the first estimates computed with the double
    precision functions of the platform's mathematical library. *)
Record env := mkenv {
  c_pi : ef;    (* constants/constants.cpp 78-157: ef::pi() *)
  c_e : ef;     (* constants/constants.cpp 164-184: ef::e() *)
  c_ln2 : ef;   (* constants/constants.cpp 186-208: ef::ln2() *)
  c_ln10 : ef;  (* constants/constants.cpp 210-232: ef::ln10() *)
  c_sqrt2 : ef; (* constants/constants.cpp 56-76: ef::sqrt2() *)
  (* elementary/elementary_trig.cpp 324-335: e_float(::asin(dd * ::pow(10.0, de))) *)
  est_asin : ef -> ef;
  (* elementary/elementary_trig.cpp 444-460: e_float(atan(dd * pow(10.0, de))) *)
  est_atan : ef -> ef;
  (* elementary/elementary_trans.cpp 326-341: the double precision logarithm *)
  est_log : ef -> ef;
  (* elementary/elementary_trans.cpp 42-58: the estimate of 1 / rootn *)
  est_rootn_inv : ef -> Z -> ef
}.

(* elementary/elementary_trig.cpp 122, 233: a loop that is run k times *)
Fixpoint times (step : ef -> ef) (k : nat) (s : ef) : ef :=
  match k with O => s | S k' => times step k' (step s) end.

Section FixedDigits.
Variable d10 : Z.
Variable env : env.

Local Notation add := (add d10).
Local Notation sub := (sub d10).
Local Notation mul := (mul d10).
Local Notation div := (div d10).
Local Notation one := (one d10).
Local Notation zero := (zero d10).
Local Notation half := (half d10).
Local Notation nan := (value_nan d10).

(* e_float.h, operator/ and operator/= of e_float with a signed integer n; the case
   Undefined does not occur for the values of n used here *)
Definition div_int (x : ef) (n : Z) : ef :=
  match div_sll d10 x n with Defined r => r | Undefined => nan end.

(* constants/constants.cpp 54 *)
Definition three_half : ef := add one half.
(* constants/constants.cpp 159 *)
Definition pi_half : ef := div_int (c_pi env) 2.
(* constants/constants.cpp 46 *)
Definition one_minus : ef := of_sll d10 (-1).

(** ** Size of an argument: elementary/elementary_math.cpp *)

(* 179-180: max((int64)(tolerance / 10.0), 6); the quotient of an integer below
   2^31 by 10.0 is not rounded up to an integer, so the conversion truncates
   the exact quotient *)
Definition arg_limit : Z := Z.max (Z.quot (tolerance d10) 10) 6.

(* 177-183 *)
Definition small_arg (x : ef) : bool := order x <? - arg_limit.

(* 197-203 *)
Definition large_arg (x : ef) : bool := order x >? arg_limit.

(* 208 *)
Definition near_one (x : ef) : bool := small_arg (fabs (sub one x)).

(** ** Series: elementary/elementary_hyper_g.cpp (see ModelGen) *)

(* 48, 88, 129, 260: NaN when the loop ran to its end *)
Definition or_nan (o : option ef) : ef := match o with Some s => s | None => nan end.

(* 17-49 *)
Definition h0f0 (x : ef) : ef :=
  or_nan (hyper_0f0 one add mul div_int (small_ef d10) x).
(* 51-89 *)
Definition h0f1 (b x : ef) : ef :=
  or_nan (hyper_0f1 one add mul div div_int (pre_inc d10) (small_ef d10) b x).
(* 91-130 *)
Definition h1f0 (a x : ef) : ef :=
  or_nan (hyper_1f0 one add mul div_int (pre_inc d10) (small_ef d10) a x).
(* 217-261 *)
Definition h2f1 (a b c x : ef) : ef :=
  or_nan (hyper_2f1 one add mul div div_int (pre_inc d10) (small_ef d10) a b c x).

(** ** Sine and cosine: elementary/elementary_trig.cpp *)

(* 53-71 and 161-182: removing multiples of pi and reducing the argument xx >= 0
   to 0 <= xx <= pi/2; the flags tell whether the multiple of pi was odd and
   whether the argument was reflected at pi/2 *)
Definition reduce (xx : ef) : ef * bool * bool :=
  let '(xx, odd) :=
    if op_gt xx (c_pi env) then
      let n_pi := integer_part d10 (div xx (c_pi env)) in
      (sub xx (mul n_pi (c_pi env)), negb (iszero (decimal_part d10 (div_int n_pi 2))))
    else (xx, false) in
  if op_gt xx pi_half then (sub (c_pi env) xx, odd, true) else (xx, odd, false).

(* 122-130: sin 3t = - ((s * (s * s)) * 4) + (s * 3), nine times *)
Definition sin_step (s : ef) : ef := add (negate (mul_int d10 (mul s (mul s s)) 4)) (mul_int d10 s 3).
Definition sin_triple (k : nat) (s : ef) : ef := times sin_step k s.

(* 233-241: cos 3t = ((c * (c * c)) * 4) - (c * 3), nine times *)
Definition cos_step (c : ef) : ef := sub (mul_int d10 (mul c (mul c c)) 4) (mul_int d10 c 3).
Definition cos_triple (k : nat) (c : ef) : ef := times cos_step k c.

(* 73-131: the sine of the reduced argument; 3^9 = 19683 *)
Definition sin_reduced (xx : ef) : ef :=
  let delta := sub pi_half xx in
  if iszero xx then zero
  else if iszero (sub xx pi_half) then one
  else if small_arg xx then mul xx (h0f1 three_half (div_int (negate (mul xx xx)) 4))
  else if small_arg delta then h0f1 half (div_int (negate (mul delta delta)) 4)
  else
    let b_scale := order xx >? -4 in
    let xx := if b_scale then div_int xx 19683 else xx in
    let s := mul xx (h0f1 three_half (div_int (negate (mul xx xx)) 4)) in
    if b_scale then sin_triple 9 s else s.

(* 184-242 *)
Definition cos_reduced (xx : ef) : ef :=
  let delta := sub pi_half xx in
  if iszero xx then one
  else if iszero (sub xx pi_half) then zero
  else if small_arg xx then h0f1 half (div_int (negate (mul xx xx)) 4)
  else if small_arg delta then mul delta (h0f1 three_half (div_int (negate (mul delta delta)) 4))
  else
    let b_scale := order xx >? -4 in
    let xx := if b_scale then div_int xx 19683 else xx in
    let c := h0f1 half (div_int (negate (mul xx xx)) 4) in
    if b_scale then cos_triple 9 c else c.

(* 26-134 *)
Definition sin (x : ef) : ef :=
  if negb (isfinite x) then nan
  else
    let xx := if isneg x then negate x else x in
    let '(xx, odd, _) := reduce xx in
    let s := sin_reduced xx in
    if xorb (isneg x) odd then negate s else s.

(* 136-245 *)
Definition cos (x : ef) : ef :=
  if negb (isfinite x) then nan
  else
    let xx := if isneg x then negate x else x in
    let '(xx, odd, refl) := reduce xx in
    let c := cos_reduced xx in
    if xorb odd refl then negate c else c.

(* 253-267: tan, csc, sec, cot *)
Definition tan (x : ef) : ef := div (sin x) (cos x).
Definition csc (x : ef) : ef := div one (sin x).
Definition sec (x : ef) : ef := div one (cos x).
Definition cot (x : ef) : ef := div (cos x) (sin x).

(** ** Inverse functions *)

(* 339-346: digits = 12, 24, ... up to the tolerance *)
Fixpoint asin_loop (fuel : nat) (xx value : ef) (dg : Z) : ef :=
  match fuel with
  | O => value
  | S f =>
      if dg <=? tolerance d10
      then asin_loop f xx (sub value (div (sub (sin value) xx) (cos value))) (dg * 2)
      else value
  end.

(* 269-349; the argument of the series for small arguments is x itself *)
Definition asin (x : ef) : ef :=
  if negb (isfinite x) then nan
  else
    let b := isneg x in
    let xx := if negb b then x else negate x in
    if op_gt xx one then nan
    else if iszero x then zero
    else if isone xx then (if negb b then pi_half else negate pi_half)
    else if small_arg xx then
      let v := mul x (h2f1 half half three_half (mul x x)) in
      if negb b then v else negate v
    else if near_one xx then
      let dx1 := sub one xx in
      let v := sub pi_half (mul (sqrt d10 (mul_int d10 dx1 2)) (h2f1 half half three_half (div_int dx1 2))) in
      if negb b then v else negate v
    else
      let v := asin_loop 40 xx (est_asin env xx) 12 in
      if negb b then v else negate v.

(* 351-379 *)
Definition acos (x : ef) : ef :=
  if negb (isfinite x) then nan
  else
    let b := op_lt x zero in
    let xx := if negb b then x else negate x in
    if op_gt xx one then nan
    else if op_lt xx one then (if iszero x then pi_half else sub pi_half (asin x))
    else if negb b then zero else c_pi env.

(* 387-394 *)
Definition atan_at_zero (x : ef) : ef := mul x (h2f1 one half three_half (negate (mul x x))).

(* 396-403 *)
Definition atan_at_infinity (x : ef) : ef :=
  sub pi_half (div (h2f1 half one three_half (div (negate one) (mul x x))) x).

(* 463-470 *)
Fixpoint atan_loop (fuel : nat) (xx value : ef) (dg : Z) : ef :=
  match fuel with
  | O => value
  | S f =>
      if dg <=? tolerance d10
      then let s := sin value in let c := cos value in
           atan_loop f xx (add value (mul c (sub (mul xx c) s))) (dg * 2)
      else value
  end.

(* 405-473 *)
Definition atan (x : ef) : ef :=
  if negb (isfinite x) then nan
  else if order x >? tolerance d10 then (if negb (isneg x) then pi_half else negate pi_half)
  else if iszero x then zero
  else if small_arg x then atan_at_zero x
  else if large_arg x then atan_at_infinity x
  else
    let b := isneg x in
    let xx := if negb b then x else negate x in
    let v := if order x <? 2 then est_atan env xx else atan_at_infinity xx in
    let v := atan_loop 40 xx v 12 in
    if negb b then v else negate v.

(* 475-520; sgn(y) * pi_half is e_float(pi_half).mul_signed_long_long.  The
   branch for infinite y (494-501) is never reached. *)
Definition atan2 (y x : ef) : ef :=
  if negb (isfinite x) || negb (isfinite y) then x
  else if iszero y then (if isneg x then c_pi env else zero)
  else if iszero x then mul_int d10 pi_half (sgn y)
  else
    let t := atan (div y x) in
    if Bool.eqb (isneg y) (isneg x) then (if isneg x then sub t (c_pi env) else t)
    else (if isneg x then add t (c_pi env) else t).

(** ** Exponential function and logarithm: elementary/elementary_trans.cpp *)

(* 197, 223: the powers and conversions used here; Undefined stands for
   undefined behaviour of the call *)
Definition obind2 {A B C : Type} (f : A -> B -> C) (x : outcome A) (y : outcome B) : outcome C :=
  match x, y with Defined a, Defined b => Defined (f a b) | _, _ => Undefined end.
Definition obind {A B : Type} (x : outcome A) (f : A -> outcome B) : outcome B :=
  match x with Defined a => f a | Undefined => Undefined end.

(* 157-231 *)
Definition exp (x : ef) : outcome ef :=
  if isnan x then Defined nan
  else if isinf x then Defined (if negb (isneg x) then value_inf d10 else zero)
  else if iszero x || (order x <? - tolerance d10) then Defined one
  else
    let b := isneg x in
    let xx := if negb b then x else negate x in
    if op_gt xx (of_sll d10 max_exp10) then Defined (if negb b then value_inf d10 else zero)
    else if isint d10 x then obind (extract_sll d10 x) (pown d10 (c_e env))
    else
      let series :=
        if order xx >? -4 then
          let nf := integer_part d10 (mul xx (div one (c_ln2 env))) in
          obind2 mul
            (pown d10 (h0f0 (div_int (sub xx (mul nf (c_ln2 env))) 2048)) 2048)
            (obind (extract_sll d10 nf) (pow2 d10))
        else Defined (h0f0 xx) in
      if negb b then series else omap (fun s => div one s) series.

(* 235-243 *)
Definition log_at_one (x : ef) : ef := mul x (h2f1 one one (two d10) (negate x)).

(* 344-355: digits = 14, 28, ... up to the tolerance *)
Fixpoint log_loop (fuel : nat) (xx v : ef) (dg : Z) : outcome ef :=
  match fuel with
  | O => Defined v
  | S f =>
      if dg <=? tolerance d10 then
        let v := precision d10 v (dg * 2) in
        let xx := precision d10 xx (dg * 2) in
        obind (exp (negate v)) (fun em => log_loop f xx (add v (sub (mul xx em) one)) (dg * 2))
      else Defined v
  end.

(* 300: 10^delta_exp, read from the text "1E..." *)
Definition pow10 (n : Z) : ef := of_limbs d10 [10 ^ (n mod 8)] (n - n mod 8) false.

(* 246-358 *)
Definition log (x : ef) : outcome ef :=
  if isnan x || isneg x || isinf x then Defined nan
  else if iszero x then Defined (negate (value_inf d10))
  else if isone x then Defined zero
  else if near_one x then Defined (log_at_one (sub x one))
  else
    let o := order x in
    if (o >? 1000) || (o <? -1000) then
      let b := o <? 0 in
      let delta := Z.abs o - 8 in
      let xx := if negb b then div x (pow10 delta) else mul x (pow10 delta) in
      let c := mul (c_ln10 env) (of_sll d10 delta) in
      let c := if b then negate c else c in
      omap (fun v => add v c) (log_loop 40 xx (est_log env xx) 14)
    else log_loop 40 x (est_log env x) 14.

(* 360-362: log10, loga, log1p *)
Definition log10 (x : ef) : outcome ef := omap (fun v => div v (c_ln10 env)) (log x).
Definition loga (a x : ef) : outcome ef := obind2 div (log x) (log a).
Definition log1p (x : ef) : ef := log_at_one x.

(** ** Hyperbolic functions *)

(* 542-569: the pair (sinh, cosh) written by sinhcosh for a finite x *)
Definition sinhcosh (x : ef) : outcome (ef * ef) :=
  if iszero x then Defined (zero, one)
  else omap (fun p => let m := div one p in (div_int (sub p m) 2, div_int (add p m) 2)) (exp x).

(* 508-523 *)
Definition sinh (x : ef) : outcome ef := if negb (isfinite x) then Defined x else omap fst (sinhcosh x).
(* 525-540 *)
Definition cosh (x : ef) : outcome ef := if negb (isfinite x) then Defined x else omap snd (sinhcosh x).
(* 571-581; for an x that is not finite the results keep their default value 0 *)
Definition tanh (x : ef) : outcome ef :=
  if negb (isfinite x) then Defined (mul (ef_default d10) (inv d10 (ef_default d10)))
  else omap (fun '(s, c) => mul s (inv d10 c)) (sinhcosh x).

(* 583-605 *)
Definition asinh (x : ef) : outcome ef :=
  if negb (isfinite x) then Defined nan
  else if iszero x then Defined zero
  else omap (fun v => if negb (isneg x) then v else negate v)
            (log (add (fabs x) (sqrt d10 (add (mul x x) one)))).

(* 607-643 *)
Definition acosh (x : ef) : outcome ef :=
  if negb (isfinite x) then Defined nan
  else if isneg x || op_lt x one then Defined nan
  else if isone x then Defined one
  else
    let xm := sub x one in
    if small_arg xm then
      Defined (mul (mul (c_sqrt2 env) (sqrt d10 xm)) (h2f1 half half three_half (div_int (negate xm) 2)))
    else log (add x (sqrt d10 (sub (mul x x) one))).

(** ** General powers and roots *)

(* 410-472.  After a <= -1 was excluded the recursive call has a exponent >= 1,
   so one level of recursion is enough. *)
Definition pow_pos (x a : ef) : outcome ef :=
  let a_int := integer_part d10 a in
  let da := sub a a_int in
  obind (extract_sll d10 a_int) (fun an =>
  if isint d10 a then pown d10 x an
  else if negb (isneg x) && op_gt x (div_int one 10) && op_lt x (div_int (of_ull d10 9) 10) then
    if small_arg a then omap (fun l => h0f0 (mul a l)) (log x)
    else if negb (an =? 0) then omap (fun p => mul (h1f0 (negate da) (sub one x)) p) (pown d10 x an)
    else Defined (h1f0 (negate a) (sub one x))
  else if negb (an =? 0) then
    obind (log x) (fun l => obind2 mul (exp (mul da l)) (pown d10 x an))
  else obind (log x) (fun l => exp (mul a l))).

(* 410-436 *)
Definition pow (x a : ef) : outcome ef :=
  if negb (isfinite x) || isone a then Defined x
  else if iszero x then Defined one
  else if iszero a then Defined one
  else if isneg x && negb (isint d10 a) then Defined nan
  else if op_le a one_minus then
    let a := negate a in
    omap (div one) (if isone a then Defined x else pow_pos x a)
  else pow_pos x a.

(* 60-76: digits = 12, 24, ... *)
Fixpoint rootn_loop (fuel : nat) (x r : ef) (p dg : Z) : outcome ef :=
  match fuel with
  | O => Defined r
  | S f =>
      if dg <=? tolerance d10 then
        let r := precision d10 r (dg * 2 + 10) in
        obind (pown d10 r p) (fun rp =>
          let t := add (div_int (add (mul (negate rp) x) one) p) one in
          let t := precision d10 t (dg * 2 + 10) in
          rootn_loop f x (mul r t) p (dg * 2))
      else Defined r
  end.

(* 35-81 *)
Definition rootn_inv (x : ef) (p : Z) : outcome ef :=
  omap (fun r => precision d10 r (tolerance d10)) (rootn_loop 40 x (est_rootn_inv env x p) p 12).

(* 91-124; -p overflows for the most negative std::int32_t *)
Definition rootn (x : ef) (p : Z) : outcome ef :=
  let positive (x : ef) (p : Z) : outcome ef :=
    if negb (isfinite x) then Defined nan
    else if (p =? 0) || isneg x then Defined nan
    else if p =? 1 then Defined x
    else if p =? 2 then Defined (sqrt d10 x)
    else omap (inv d10) (rootn_inv x p) in
  if negb (isfinite x) then Defined nan
  else if p <? 0 then (if p =? -2147483648 then Undefined else positive (div one x) (- p))
  else positive x p.

(* 126-155 *)
Definition rootn_inverse (x : ef) (p : Z) : outcome ef :=
  if negb (isfinite x) then Defined nan
  else if p <? 0 then (if p =? -2147483648 then Undefined else pown d10 x (- p))
  else if (p =? 0) || isneg x then Defined nan
  else if p =? 1 then Defined x
  else if p =? 2 then Defined (div one (sqrt d10 x))
  else rootn_inv x p.

End FixedDigits.
