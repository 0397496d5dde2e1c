(** * Model, part 4: integer powers, powers of two, ldexp, frexp, sgn, fmod. *)

From Coq Require Import ZArith List Bool.
From Verif Require Import Model ModelDiv.
Import ListNotations.
Open Scope Z_scope.

(** ** The two exponentiation algorithms, for any type of numbers

    [one] is T(1U), [one_s] is T(1); [sq x] is x *= x with both operands the
    same object. *)

Section Power.
Context {T : Type}.
Variables (one one_s : T) (mul : T -> T -> T) (sq : T -> T) (div : T -> T -> T).

(* functions/elementary/elementary_trans.cpp 492-502: the loop over the bits
   of p_local (at most 64 of them) *)
Fixpoint pow_loop (fuel : nat) (p : Z) (result y : T) : T :=
  match fuel with
  | O => result
  | S f =>
      if p =? 0 then result
      else pow_loop f (p / 2) (if negb (p mod 2 =? 0) then mul result y else result) (sq y)
  end.

(* functions/elementary/elementary_trans.cpp 483-503: the branches p >= 0 *)
Definition pow_nonneg (b : T) (p : Z) : T :=
  if p =? 0 then one
  else if p =? 1 then b
  else if p =? 2 then mul b b
  else if p =? 3 then mul (mul b b) b
  else if p =? 4 then sq (mul b b)
  else pow_loop 64 p one b.

(* functions/elementary/elementary_trans.cpp 474-506; -p overflows for the
   most negative std::int64_t *)
Definition pow_gen (b : T) (p : Z) : outcome T :=
  if p <? 0 then
    if p =? sll_min then Undefined else Defined (div one_s (pow_nonneg b (- p)))
  else Defined (pow_nonneg b p).

(* detail/e_float_detail_pown_template.h 47-60: while((p2 /= 2) != 0) *)
Fixpoint pown_loop (fuel : nat) (p2 : Z) (result tn : T) : T :=
  match fuel with
  | O => result
  | S f =>
      let p2' := Z.quot p2 2 in
      if p2' =? 0 then result
      else
        let tn' := sq tn in
        pown_loop f p2' (if negb (Z.rem p2' 2 =? 0) then mul result tn' else result) tn'
  end.

(* detail/e_float_detail_pown_template.h 32-63: the branches p >= 0; the
   products t * t, (t * t) * t and t2 * t2 of e_float are e_float(u) *= v *)
Definition pown_nonneg (t : T) (p : Z) : T :=
  if p =? 0 then one_s
  else if p =? 1 then t
  else if p =? 2 then mul t t
  else if p =? 3 then mul (mul t t) t
  else if p =? 4 then let t2 := mul t t in mul t2 t2
  else pown_loop 64 p (if negb (Z.rem p 2 =? 0) then t else one) t.

(* detail/e_float_detail_pown_template.h 26-65 *)
Definition pown_gen (t : T) (p : Z) : outcome T :=
  if p <? 0 then
    if p =? sll_min then Undefined else Defined (div one_s (pown_nonneg t (- p)))
  else Defined (pown_nonneg t p).

End Power.

Section FixedDigits.
Variable d10 : Z.

(** ** Powers of e_float *)

(* functions/elementary/elementary_trans.cpp 474-506.  1 / x is e_float(1) /= x
   (e_float.h 226-230) *)
Definition pow_int (b : ef) (p : Z) : outcome ef :=
  pow_gen (one d10) (of_sll d10 1) (mul d10) (mul_self d10) (div d10) b p.

(* detail/e_float_detail_pown_template.h 26-65 at T = e_float *)
Definition pown (b : ef) (p : Z) : outcome ef :=
  pown_gen (one d10) (of_sll d10 1) (mul d10) (mul_self d10) (div d10) b p.

(* functions/elementary/elementary_trans.cpp 26-33 *)
Definition pow2 (p : Z) : outcome ef :=
  if p <? -1 then
    if p =? sll_min then Undefined else pow_int (of_limbs d10 [50000000] (-8) false) (- p)
  else if p =? -1 then Defined (of_limbs d10 [50000000] (-8) false)
  else if p =? 0 then Defined (of_limbs d10 [1] 0 false)
  else if p =? 1 then Defined (of_limbs d10 [2] 0 false)
  else pow_int (of_ull d10 2) p.

(* a call whose argument is the result of another call
   (functions/elementary/elementary_math.cpp 73, 84) *)
Definition omap {A B : Type} (f : A -> B) (x : outcome A) : outcome B :=
  match x with Defined a => Defined (f a) | Undefined => Undefined end.

(* functions/elementary/elementary_math.cpp 71-74; e is an int (32 bits) *)
Definition ldexp (v : ef) (e : Z) : outcome ef := omap (mul d10 v) (pow2 e).

(* functions/elementary/elementary_math.cpp 76-86: the exponent delivered by
   extract_parts (ModelDiv.parts_exponent) is a decimal one.  SIMPLIFIED: the
   exponent of a finite number fits the int it is stored in. *)
Definition frexp (v : ef) : outcome (ef * Z) :=
  let i := parts_exponent v in
  omap (fun q => (mul d10 v q, i)) (pow2 (- i)).

(* functions/elementary/elementary_math.cpp 59-69 *)
Definition sgn (x : ef) : Z := if iszero x then 0 else if isneg x then -1 else 1.

(* functions/elementary/elementary_math.cpp 88-93 *)
Definition fmod (v1 v2 : ef) : ef :=
  let q := div d10 v1 v2 in
  let n := if isneg v1 then ceil d10 q else floor d10 q in
  sub d10 v1 (mul d10 n v2).

End FixedDigits.
