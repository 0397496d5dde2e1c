(** * Model of the native decimal back end (efx) of e_float.

    Every definition cites the file and lines it models; paths are relative to
    /repo/libs/e_float/src/e_float unless they start with functions/ or
    utility/ (then relative to /repo/libs/e_float/src).

    Machine integers are represented by [Z].  32- and 64-bit unsigned
    arithmetic is wrapped explicitly with [u32]/[u64].  Exponents ([my_exp],
    a std::int64_t) are unbounded integers: the model does not wrap them.
    This is faithful as long as the exponents of the operands stay away from
    +-2^63; one operation changes them by at most a few times the number of
    digits, see DESIGN.md. *)

From Coq Require Import ZArith List Bool.
Import ListNotations.
Open Scope Z_scope.

(** ** Machine integers *)

(* conversion to std::uint32_t: reduction modulo 2^32 *)
Definition u32 (x : Z) : Z := x mod 4294967296.

(* conversion to std::uint64_t / unsigned long long: reduction modulo 2^64 *)
Definition u64 (x : Z) : Z := x mod 18446744073709551616.

(* conversion to signed long long (two's complement, as every compiler does) *)
Definition s64 (x : Z) : Z :=
  let y := u64 x in
  if y <? 9223372036854775808 then y else y - 18446744073709551616.

(* std::numeric_limits<signed long long>::max(), min(); <unsigned long long>::max(),
   used in efx/e_float_efx.cpp 1507-1591 and functions/constants/constants.cpp 38-40 *)
Definition sll_max : Z := 9223372036854775807.
Definition sll_min : Z := -9223372036854775808.
Definition ull_max : Z := 18446744073709551615.

(** ** Configuration: e_float_base.h 52-55, efx/e_float_efx.h 61-82 *)

(* e_float_base.h 54: ef_digits10 is the setting clamped to [30, 2^30] *)
Definition digits10_of_setting (s : Z) : Z :=
  if s <? 30 then 30 else if s >? 1073741824 then 1073741824 else s.

(* e_float_base.h 55 *)
Definition max_digits10 (d10 : Z) : Z := d10 + 1.

(* efx/e_float_efx.h 82 *)
Definition mask : Z := 100000000.

(* efx/e_float_efx.h 61-63 *)
Definition elem_number (d10 : Z) : Z :=
  max_digits10 d10 / 8 + (if max_digits10 d10 mod 8 =? 0 then 0 else 1) + 3.

(* efx/e_float_efx.h 68-69: ((2^31-1-31)/8)*8 and ((-2^31+31)/8)*8 *)
Definition max_exp10 : Z := 2147483616.
(* efx/e_float_efx.h 69 *)
Definition min_exp10 : Z := -2147483616.

(* functions/elementary/elementary_math.cpp tolerance (see e_float_functions.h:
   max_digits10 + max_digits10/10) *)
Definition tolerance (d10 : Z) : Z := max_digits10 d10 + max_digits10 d10 / 10.

(** ** State: efx/e_float_efx.h 74-80, 242-246 *)

(* efx/e_float_efx.h 74-80: fpclass_type *)
Inductive fpclass := Finite | Inf | NaN.

(* The array my_data has exactly elem_number entries, or none at all after the
   object was moved from (utility/util_dynamic_array.h 109-114, 167-168).
   efx/e_float_efx.h 242-246: my_data, my_exp, my_neg, my_fpclass, my_prec_elem *)
Record ef := mkef {
  data : list Z;
  exp  : Z;
  neg  : bool;
  cls  : fpclass;
  prec : Z
}.

(* assignment to the member my_neg / my_prec_elem (efx/e_float_efx.h 244, 246) *)
Definition set_neg (x : ef) (b : bool) : ef := mkef (data x) (exp x) b (cls x) (prec x).
Definition set_prec (x : ef) (p : Z) : ef := mkef (data x) (exp x) (neg x) (cls x) p.

(** ** List versions of the standard algorithms used on my_data *)

(* a[i], reading limb i *)
Definition limb (l : list Z) (i : nat) : Z := nth i l 0.

(* a[i] = x *)
Fixpoint upd (i : nat) (x : Z) (l : list Z) : list Z :=
  match l, i with
  | [], _ => []
  | _ :: t, O => x :: t
  | h :: t, S i' => h :: upd i' x t
  end.

(* std::copy of l[0..n-k) to positions k.. preceded by std::fill of k zeros *)
Definition shift_right (k : nat) (l : list Z) : list Z :=
  firstn (length l) (repeat 0 k ++ l).

(* std::copy of l[k..n) to the front followed by std::fill of k zeros *)
Definition shift_left (k : nat) (l : list Z) : list Z :=
  skipn k l ++ repeat 0 (Nat.min k (length l)).

(* distance from begin to std::find_if(..., d != 0) *)
Fixpoint first_nonzero (l : list Z) : nat :=
  match l with
  | [] => O
  | x :: t => if x =? 0 then S (first_nonzero t) else O
  end.

(* copy_backward(begin, begin+p-1, begin+p) followed by front() = c *)
Definition push_front (p : nat) (c : Z) (l : list Z) : list Z :=
  c :: firstn (p - 1) l ++ skipn p l.

(** ** Digit loops *)

(* efx/e_float_efx.cpp 496-508: addition loop, least significant limb (the
   last one) first; returns the limbs and the carry out of limb 0. *)
Fixpoint add_loop (u v : list Z) : list Z * Z :=
  match u, v with
  | a :: u', b :: v' =>
      let '(r, c) := add_loop u' v' in
      let t := u32 (u32 (a + b) + c) in
      let c' := t / mask in
      (u32 (t - u32 (c' * mask)) :: r, c')
  | _, _ => ([], 0)
  end.

(* efx/e_float_efx.cpp 577-598: subtraction loop with borrow.  The operands
   are below 2^31, so the int32 arithmetic cannot overflow. *)
Fixpoint sub_loop (u v : list Z) : list Z * Z :=
  match u, v with
  | a :: u', b :: v' =>
      let '(r, bw) := sub_loop u' v' in
      let t := a - b - bw in
      if t <? 0 then ((t + mask) mod mask :: r, 1) else (t mod mask :: r, 0)
  | _, _ => ([], 0)
  end.

(* efx/e_float_efx.cpp 198-201: inner loop for i = j downto 0 of
   sum += u[j-i]*v[i], on 64-bit unsigned integers *)
Fixpoint col_sum (u v : list Z) (j : nat) (i : nat) (sum : Z) : Z :=
  let sum' := u64 (sum + u64 (limb u (j - i) * limb v i)) in
  match i with
  | O => sum'
  | S i' => col_sum u v j i' sum'
  end.

(* efx/e_float_efx.cpp 188-208: outer loop for j = p-1 downto 0 with in-place
   update of u; first argument is j+1.  v is a separate array. *)
Fixpoint mul_loop_uv (j1 : nat) (u v : list Z) (carry : Z) : list Z * Z :=
  match j1 with
  | O => (u, u32 carry)
  | S j =>
      let sum := col_sum u v j j carry in
      mul_loop_uv j (upd j (u32 (sum mod mask)) u) v (sum / mask)
  end.

(* The same loop when both pointers refer to the same array (x *= x). *)
Fixpoint mul_loop_uu (j1 : nat) (u : list Z) (carry : Z) : list Z * Z :=
  match j1 with
  | O => (u, u32 carry)
  | S j =>
      let sum := col_sum u u j j carry in
      mul_loop_uu j (upd j (u32 (sum mod mask)) u) (sum / mask)
  end.

(* efx/e_float_efx.cpp 350-363 restricted to the first p limbs by the caller *)
Fixpoint mul_loop_n (u : list Z) (n : Z) : list Z * Z :=
  match u with
  | [] => ([], 0)
  | a :: u' =>
      let '(r, c) := mul_loop_n u' n in
      let t := u64 (c + u64 (a * n)) in
      let c' := t / mask in
      (u32 (u64 (t - u64 (mask * c'))) :: r, c')
  end.

(* efx/e_float_efx.cpp 365-377 restricted to the first p limbs by the caller;
   the second argument is the running remainder [prev] *)
Fixpoint div_loop_n (u : list Z) (prev n : Z) : list Z * Z :=
  match u with
  | [] => ([], u32 prev)
  | a :: u' =>
      let t := u64 (a + u64 (prev * mask)) in
      let q := u32 (t / n) in
      let '(r, pr) := div_loop_n u' (u64 (t - u64 (n * q))) n in
      (q :: r, pr)
  end.

(* efx/e_float_efx.cpp 244-251: splitting into half limbs *)
Definition half_limbs (u : list Z) : list Z :=
  flat_map (fun x => [x / 10000; x mod 10000]) u.

(* sum_{i<=k} a[i]*b[k-i] *)
Definition conv_at (a b : list Z) (k : nat) : Z :=
  fold_right Z.add 0 (map (fun i => limb a i * limb b (k - i)) (seq 0 (S k))).

(* efx/e_float_efx.cpp 256-323 and detail/e_float_detail_fft.h, SIMPLIFIED:
   the floating-point FFT convolution followed by rounding to the nearest
   integer is replaced by the exact convolution. *)
Definition fft_convolution (u v : list Z) (k : nat) : Z :=
  conv_at (half_limbs u) (half_limbs v) k.

(* efx/e_float_efx.cpp 328-343: carry release from j = 2p-2 down to 0; first
   argument is the number of limbs left, [c] the convolution. *)
Fixpoint carry_release (c : nat -> Z) (i1 : nat) (carry : Z) (acc : list Z) : list Z :=
  match i1 with
  | O => acc
  | S i =>
      let xlo := u64 (c (2 * i)%nat + carry) in
      let carry1 := xlo / 10000 in
      let nlo := xlo - carry1 * 10000 in
      let xhi := u64 ((match i with O => 0 | _ => c (2 * i - 1)%nat end) + carry1) in
      let carry2 := xhi / 10000 in
      let nhi := xhi - carry2 * 10000 in
      carry_release c i carry2 (u32 (nhi * 10000 + nlo) :: acc)
  end.

(* efx/e_float_efx.cpp 210-348 *)
Definition mul_loop_fft (u v : list Z) (p : nat) : list Z :=
  carry_release (fft_convolution (firstn p u) (firstn p v)) p 0 [] ++ skipn p u.

(** ** The class, for a given digits10 *)

(** Outcomes of functions that may leave the defined part of the language. *)
Inductive outcome (A : Type) := Defined (a : A) | Undefined.
Arguments Defined {A} _.
Arguments Undefined {A}.

Section Efx.

Variable d10 : Z.

(* efx/e_float_efx.h 61-63: ef_elem_number, as an integer and as a length *)
Definition N : Z := elem_number d10.
Definition Nn : nat := Z.to_nat N.

(* efx/e_float_efx.h 90-94: default constructor *)
Definition ef_default : ef := mkef (repeat 0 Nn) 0 false Finite N.

(* efx/e_float_efx.h 163-167, efx.cpp 1712-1724: NaN and infinity *)
Definition value_nan : ef := mkef (repeat 0 Nn) 0 false NaN N.
Definition value_inf : ef := mkef (repeat 0 Nn) 0 false Inf N.

(* efx/e_float_efx.h 169-176 and detail/e_float_detail_dynamic_array.h 44-50:
   initializer-list constructor; surplus limbs are dropped *)
Definition of_limbs (l : list Z) (e : Z) (b : bool) : ef :=
  mkef (firstn Nn l ++ repeat 0 (Nn - length l)) e b Finite N.

(* efx/e_float_efx.cpp 131-138: digits of uu, least significant first; the
   while loop runs at most 3 times for a 64-bit value (fuel 9, the size of
   the local array temp is 5) *)
Fixpoint ull_limbs (fuel : nat) (uu : Z) : list Z :=
  match fuel with
  | O => []
  | S f => if uu =? 0 then [] else (uu mod mask) :: ull_limbs f (uu / mask)
  end.

(* efx/e_float_efx.cpp 119-148 with efx.h 100-107: construction from unsigned *)
Definition of_ull (u : Z) : ef :=
  let temp := rev (ull_limbs 9 u) in
  let i := length temp in
  mkef (firstn (Nat.min i Nn) temp ++ repeat 0 (Nn - Nat.min i Nn))
       (if (1 <? i)%nat then Z.of_nat (i - 1) * 8 else 0) false Finite N.

(* efx/e_float_efx.h 30-41, 113-127: construction from signed; the magnitude is
   the wrapped negation of the unsigned conversion *)
Definition of_sll (n : Z) : ef :=
  let b := n <? 0 in
  let u := if negb b then u64 n else u64 (- u64 n) in
  set_neg (of_ull u) b.

(* e_float.cpp 44 *)
Definition zero : ef := of_ull 0.
(* e_float.cpp 45 *)
Definition one : ef := of_ull 1.
(* functions/constants/constants.cpp 17 *)
Definition two : ef := of_ull 2.
(* e_float.cpp 46 *)
Definition half : ef := of_limbs [50000000] (-8) false.

(* functions/constants/constants.cpp 38-40 *)
Definition c_ull_max : ef := of_ull ull_max.
(* functions/constants/constants.cpp 38-40 *)
Definition c_sll_min : ef := of_sll sll_min.
(* functions/constants/constants.cpp 38-40 *)
Definition c_sll_max : ef := of_sll sll_max.

(* e_float_base.cpp 81-89: parsed from "9." followed by max_digits10 nines and
   "e+2147483616".  Given here in closed form; theorem [value_max_is_parsed]
   shows that reading that string yields this object. *)
Definition value_max : ef :=
  let q := Z.to_nat (max_digits10 d10 / 8) in
  let r := max_digits10 d10 mod 8 in
  let digits := 9 :: repeat 99999999 q ++
                (if r =? 0 then [] else [(10 ^ r - 1) * 10 ^ (8 - r)]) in
  mkef (digits ++ repeat 0 (Nn - length digits)) max_exp10 false Finite N.

(* efx/e_float_efx.cpp 1285-1287: isnan, isinf, isfinite *)
Definition isnan (x : ef) : bool := match cls x with NaN => true | _ => false end.
Definition isinf (x : ef) : bool := match cls x with Inf => true | _ => false end.
Definition isfinite (x : ef) : bool := match cls x with Finite => true | _ => false end.

(* efx/e_float_efx.cpp 1289-1292 *)
Definition iszero (x : ef) : bool := isfinite x && (limb (data x) 0 =? 0).

(* efx/e_float_efx.cpp 1366-1369 *)
Definition isneg (x : ef) : bool := neg x.

(* efx/e_float_efx.cpp 1294-1329.  The first find_if looks for a non-zero limb
   in the whole array, including the leading 1. *)
Definition isone (x : ef) : bool :=
  if negb (neg x) && isfinite x then
    if (limb (data x) 0 =? 1) && (exp x =? 0) then
      forallb (fun d => d =? 0) (data x)
    else if (limb (data x) 0 =? mask - 1) && (exp x =? -8) then
      forallb (fun d => d =? mask - 1) (data x)
    else false
  else false.

(* efx/e_float_efx.cpp 1331-1364 *)
Definition isint (x : ef) : bool :=
  if negb (isfinite x) then false
  else if iszero x then true
  else if exp x <? 0 then false
  else
    let off := Z.quot (exp x) 8 + 1 in
    if off >=? N then true
    else forallb (fun d => d =? 0) (skipn (Z.to_nat off) (data x)).

(* efx/e_float_efx.cpp 1180-1201: std::mismatch and comparison *)
Fixpoint cmp_data (u v : list Z) : Z :=
  match u, v with
  | a :: u', b :: v' => if a =? b then cmp_data u' v' else if a >? b then 1 else -1
  | [], [] => 0
  | _, _ => -1
  end.

(* efx/e_float_efx.cpp 1203-1283 *)
Definition cmp (x y : ef) : Z :=
  if negb (isfinite x) || negb (isfinite y) then
    if isnan x || isnan y then (if isnan x then 1 else -1)
    else if isinf x && isinf y then
      (if Bool.eqb (neg x) (neg y) then 0 else if neg x then -1 else 1)
    else if isinf x then (if neg x then -1 else 1)
    else (if neg y then 1 else -1)
  else if iszero x then
    (if iszero y then 0 else if neg y then 1 else -1)
  else if iszero y then (if neg x then -1 else 1)
  else if negb (Bool.eqb (neg x) (neg y)) then (if neg x then -1 else 1)
  else if negb (exp x =? exp y) then
    let c := if exp x <? exp y then 1 else -1 in
    if neg x then c else - c
  else
    let c := cmp_data (data x) (data y) in
    if negb (neg x) then c else - c.

(* e_float.cpp 25-30: the operators < <= == != >= > *)
Definition op_lt (x y : ef) : bool := cmp x y <? 0.
Definition op_le (x y : ef) : bool := cmp x y <=? 0.
Definition op_eq (x y : ef) : bool := cmp x y =? 0.
Definition op_ne (x y : ef) : bool := negb (cmp x y =? 0).
Definition op_ge (x y : ef) : bool := cmp x y >=? 0.
Definition op_gt (x y : ef) : bool := cmp x y >? 0.

(* efx/e_float_efx.cpp 1170-1178 *)
Definition negate (x : ef) : ef :=
  if negb (iszero x) then set_neg x (negb (neg x)) else x.

(* functions/elementary/elementary_math.cpp 38: x.isneg() ? -x : x *)
Definition fabs (x : ef) : ef := if isneg x then negate x else x.

(* [b ? -inf : inf] *)
Definition signed_inf (b : bool) : ef := if b then negate value_inf else value_inf.

(* efx/e_float_efx.cpp 379-386 (int32 arithmetic, truncating division) *)
Definition precision (x : ef) (d : Z) : ef :=
  let elems := Z.quot d 8 + (if Z.rem d 8 =? 0 then 0 else 1) in
  set_prec x (Z.min N (Z.max elems 2)).

(* efx/e_float_efx.cpp 463-527: equal signs *)
Definition add_same (u v : ef) (ofs : Z) : ef :=
  let '(pu, pv, e) :=
    if ofs >=? 0
    then (data u, shift_right (Z.to_nat ofs) (data v), exp u)
    else (shift_right (Z.to_nat (- ofs)) (data u), data v, exp v) in
  let '(r, c) := add_loop pu pv in
  if c =? 0 then mkef r e (neg u) (cls u) (prec u)
  else mkef (push_front Nn c r) (e + 8) (neg u) (cls u) (prec u).

(* efx/e_float_efx.cpp 607-640: justification *)
Definition justify (x : ef) : ef :=
  let sj := first_nonzero (data x) in
  if (sj =? 0)%nat then x
  else if (sj =? length (data x))%nat then mkef (data x) 0 false (cls x) (prec x)
  else mkef (shift_left sj (data x)) (exp x - Z.of_nat sj * 8) (neg x) (cls x) (prec x).

(* efx/e_float_efx.cpp 530-641: different signs *)
Definition sub_diff (u v : ef) (ofs : Z) : ef :=
  if (ofs >? 0) || ((ofs =? 0) && (cmp_data (data u) (data v) >? 0)) then
    justify (mkef (fst (sub_loop (data u) (shift_right (Z.to_nat ofs) (data v))))
                  (exp u) (neg u) (cls u) (prec u))
  else
    justify (mkef (fst (sub_loop (data v) (shift_right (Z.to_nat (- ofs)) (data u))))
                  (exp v) (neg v) (cls u) (prec u)).

(* efx/e_float_efx.cpp 643-657: underflow and overflow check *)
Definition add_finish (r : ef) : ef :=
  if iszero r then zero
  else if (exp r >=? max_exp10) && op_gt (fabs r) value_max
       then signed_inf (neg r) else r.

(* efx/e_float_efx.cpp 415-658 *)
Definition add (u v : ef) : ef :=
  if isnan u then u
  else if isinf u then
    (if isinf v && negb (Bool.eqb (neg u) (neg v)) then value_nan else u)
  else if iszero u then v
  else
    let max_delta := (N - 1) * 8 in
    let ofs_exp := exp u - exp v in
    if iszero v || (ofs_exp >? max_delta) then u
    else if ofs_exp <? - max_delta then v
    else
      let ofs := Z.quot ofs_exp 8 in
      add_finish (if Bool.eqb (neg u) (neg v) then add_same u v ofs else sub_diff u v ofs).

(* efx/e_float_efx.cpp 660-664, v another object *)
Definition sub (u v : ef) : ef := negate (add (negate u) v).

(* efx/e_float_efx.cpp 660-664 for x -= x: negate() also changes the operand *)
Definition sub_self (x : ef) : ef := negate (add (negate x) (negate x)).

(* efx/e_float_efx.cpp 733-784: digits and sign of the product of two finite
   non-zero numbers whose exponents are in range.  [loop] is mul_loop_uv, or
   its aliased version. *)
Definition mul_digits (loop : nat -> list Z * Z) (u v : ef) : ef :=
  let p := Z.min (prec u) (prec v) in
  let e := exp u + exp v in
  let b := negb (Bool.eqb (neg u) (neg v)) in
  if p * 8 <? 5000 then
    let '(r, c) := loop (Z.to_nat p) in
    if c =? 0 then mkef r e b (cls u) (prec u)
    else mkef (push_front (Z.to_nat (prec u)) c r) (e + 8) b (cls u) (prec u)
  else
    let r := mul_loop_fft (data u) (data v) (Z.to_nat p) in
    if limb r 0 =? 0 then
      let lim := Z.to_nat (Z.min N (prec u + 1)) in
      let shifted := skipn 1 (firstn lim r) ++ skipn (lim - 1) r in
      mkef (upd (Nn - 1) 0 shifted) e b (cls u) (prec u)
    else mkef r (e + 8) b (cls u) (prec u).

(* efx/e_float_efx.cpp 666-787: operator*=, the special operands and the
   exponent checks; [loop] is the schoolbook loop, whose operands may be the
   same array *)
Definition mul_gen (loop : nat -> list Z * Z) (u v : ef) : ef :=
  let b := negb (Bool.eqb (neg u) (neg v)) in
  if (isnan u || isnan v) || (isinf u && iszero v) || (isinf v && iszero u)
  then value_nan
  else if isinf u || isinf v then signed_inf b
  else if iszero u || iszero v then zero
  else
    let un := exp u <? 0 in
    let vn := exp v <? 0 in
    if Bool.eqb un vn && (Z.abs (exp v) >=? max_exp10 - Z.abs (exp u))
    then (if un then zero else signed_inf b)
    else mul_digits loop u v.

(* efx/e_float_efx.cpp 666-787 with v another object *)
Definition mul (u v : ef) : ef :=
  mul_gen (fun p => mul_loop_uv p (data u) (data v) 0) u v.

(* efx/e_float_efx.cpp 666-787 for x *= x (my_neg is cleared in both views
   before iszero()/isinf() are evaluated, which do not look at the sign) *)
Definition mul_self (x : ef) : ef :=
  mul_gen (fun p => mul_loop_uu p (data x) 0) x x.

(* efx/e_float_efx.cpp 828-896 *)
Definition mul_ull (x : ef) (n : Z) : ef :=
  if isnan x || (isinf x && (n =? 0)) then value_nan
  else if isinf x then signed_inf (neg x)
  else if iszero x || (n =? 0) then zero
  else if n >=? mask then mul x (of_ull n)
  else if n =? 1 then x
  else
    let p := Z.to_nat (prec x) in
    let '(r, c) := mul_loop_n (firstn p (data x)) (u32 n) in
    let r' := r ++ skipn p (data x) in
    if u32 c =? 0 then mkef r' (exp x) (neg x) (cls x) (prec x)
    else mkef (push_front p (u32 c) r') (exp x + 8) (neg x) (cls x) (prec x).

(* efx/e_float_efx.cpp 816-826 *)
Definition add_ull (x : ef) (n : Z) : ef := add x (of_ull n).
(* efx/e_float_efx.cpp 822-826 *)
Definition sub_ull (x : ef) (n : Z) : ef := sub x (of_ull n).

(* efx/e_float_efx.cpp 386-401, 986-996: swap through two copy assignments *)
Definition swap (x y : ef) : ef * ef := (y, x).

(* efx/e_float_efx.cpp 1371-1377: ++x, --x, x++, x--; the postfix forms return
   (old, new) *)
Definition pre_inc (x : ef) : ef := add x one.
Definition pre_dec (x : ef) : ef := sub x one.
Definition post_inc (x : ef) : ef * ef := (x, pre_inc x).
Definition post_dec (x : ef) : ef * ef := (x, pre_dec x).

(* efx/e_float_efx.cpp 1593-1627 *)
Definition integer_part (x : ef) : ef :=
  if negb (isfinite x) then x
  else if exp x <? 0 then zero
  else if exp x >=? d10 - 1 then x
  else
    let k := Z.to_nat (Z.quot (exp x) 8 + 1) in
    mkef (firstn k (data x) ++ repeat 0 (Nn - k)) (exp x) (neg x) (cls x) (prec x).

(* efx/e_float_efx.cpp 1629-1710 *)
Definition decimal_part (x : ef) : ef :=
  if negb (isfinite x) then x
  else if iszero x then zero
  else if exp x <? 0 then x
  else if exp x >=? d10 - 1 then zero
  else
    let k := Z.to_nat (Z.quot (exp x) 8 + 1) in
    let dt := shift_left k (data x) in
    let sj := first_nonzero dt in
    if (sj =? 0)%nat then
      mkef dt (exp x - Z.of_nat k * 8) (neg x) (cls x) (prec x)
    else if (sj =? length dt)%nat then
      mkef dt (0 - Z.of_nat k * 8) false (cls x) (prec x)
    else
      mkef (shift_left sj dt) (exp x - (Z.of_nat k + Z.of_nat sj) * 8) (neg x) (cls x) (prec x).

(* functions/elementary/elementary_math.cpp 43-49 *)
Definition floor (x : ef) : ef :=
  if negb (isfinite x) || isint x then x
  else if isneg x then integer_part (sub x one) else integer_part x.
(* functions/elementary/elementary_math.cpp 51-57 *)
Definition ceil (x : ef) : ef :=
  if negb (isfinite x) || isint x then x
  else if isneg x then integer_part x else integer_part (add x one).

(* efx/e_float_efx.cpp 1535-1543: val = val*mask + limb, 64-bit unsigned *)
Definition horner_ull (l : list Z) : Z :=
  fold_left (fun val d => u64 (u64 (val * mask) + d)) (tl l) (hd 0 l).

(* efx/e_float_efx.cpp 1507-1547.  Negating signed long long minimum is
   undefined behaviour. *)
Definition extract_sll (x : ef) : outcome Z :=
  if exp x <? 0 then Defined 0
  else if negb (neg x) && op_gt x c_sll_max then Defined sll_max
  else if neg x && op_lt x c_sll_min then Defined sll_min
  else
    let xn := fabs (integer_part x) in
    let imax := Z.min (Z.quot (exp xn) 8) (N - 1) in
    let val := horner_ull (firstn (S (Z.to_nat imax)) (data xn)) in
    if negb (neg x) then Defined (s64 val)
    else if s64 val =? sll_min then Undefined else Defined (- s64 val).

(* efx/e_float_efx.cpp 1549-1591 *)
Definition extract_ull (x : ef) : outcome Z :=
  if neg x then
    match extract_sll x with Defined n => Defined (u64 n) | Undefined => Undefined end
  else if exp x <? 0 then Defined 0
  else
    let xn := integer_part x in
    if op_gt xn c_ull_max then Defined ull_max
    else
      let imax := Z.min (Z.quot (exp xn) 8) (N - 1) in
      Defined (horner_ull (firstn (S (Z.to_nat imax)) (data xn))).

(* number of decimal digits of a limb, minus one: the loop of
   efx/e_float_efx.cpp 1386-1401 *)
Fixpoint digits_minus_one (fuel : nat) (t : Z) : Z :=
  match fuel with
  | O => 0
  | S f => if t / 10 =? 0 then 0 else 1 + digits_minus_one f (t / 10)
  end.

(* efx/e_float_efx.cpp 1726-1740, SIMPLIFIED: the truncated value of
   log10(data[0]) + 0.9*epsilon in double arithmetic is taken to be the exact
   number of decimal digits minus one. *)
Definition order (x : ef) : Z :=
  if negb (isfinite x) || (limb (data x) 0 =? 0) then 0
  else exp x + digits_minus_one 10 (limb (data x) 0).

(** ** Mixed arithmetic: e_float_base.cpp 98-138 *)

(* e_float_base.cpp 98-112: add_signed_long_long *)
Definition add_sll (x : ef) (n : Z) : outcome ef :=
  if n <? 0 then
    if n =? sll_min then Undefined
    else Defined (negate (add_ull (negate x) (u64 (- n))))
  else Defined (add_ull x (u64 n)).

(* e_float_base.cpp 114-117: sub_signed_long_long *)
Definition sub_sll (x : ef) (n : Z) : outcome ef :=
  if n =? sll_min then Undefined else add_sll x (- n).

(* e_float_base.cpp 119-138: mul_signed_long_long *)
Definition mul_sll (x : ef) (n : Z) : outcome ef :=
  if n =? sll_min then Undefined
  else
    let b := n <? 0 in
    let y := mul_ull x (if negb b then u64 n else u64 (- n)) in
    let y := if b then negate y else y in
    Defined (if op_gt (fabs y) value_max then signed_inf (isneg y) else y).

End Efx.
