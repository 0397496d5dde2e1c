(** * Specification: what the objects mean.

    Nothing here refers to the operations of the model; only the record type
    of its state is used. *)

From Coq Require Import ZArith List Bool Reals Lra.
From Verif Require Import Model.
Import ListNotations.
Open Scope R_scope.

(** The real number written with base 10^8 digits [l], the first one having
    weight 10^e. *)
Fixpoint limbs_value (l : list Z) (e : Z) : R :=
  match l with
  | [] => 0
  | d :: t => IZR d * powerRZ 10 e + limbs_value t (e - 8)
  end.

Definition sign (b : bool) : R := if b then -1 else 1.

(** The real number represented by a finite object. *)
Definition value (x : ef) : R := sign (neg x) * limbs_value (data x) (exp x).

(** Possible values of digits10: e_float_base.h clamps to this range. *)
Definition valid_digits (d10 : Z) : Prop := (30 <= d10 <= 1073741824)%Z.

(** A base 10^8 digit. *)
Definition is_limb (d : Z) : Prop := (0 <= d < 100000000)%Z.

(** Representation invariant: full number of limbs, limbs in range, exponent a
    multiple of 8, working precision between 2 and the number of limbs; a
    finite number whose leading limb is zero is zero, without a sign; infinities
    and NaN carry no digits. *)
Record wf (d10 : Z) (x : ef) : Prop := {
  wf_length : Z.of_nat (length (data x)) = elem_number d10;
  wf_limbs  : Forall is_limb (data x);
  wf_exp    : (exp x mod 8 = 0)%Z;
  wf_prec   : (2 <= prec x <= elem_number d10)%Z;
  wf_zero   : cls x = Finite -> nth 0 (data x) 0%Z = 0%Z ->
              Forall (fun d => d = 0%Z) (data x) /\ neg x = false;
  wf_nonfin : cls x <> Finite -> Forall (fun d => d = 0%Z) (data x) /\ exp x = 0%Z
}.

(** A well-formed finite number. *)
Definition finite (d10 : Z) (x : ef) : Prop := wf d10 x /\ cls x = Finite.

(** Working with all stored limbs (the precision every public constructor
    sets up). *)
Definition full (d10 : Z) (x : ef) : Prop := prec x = elem_number d10.

(** [x] is a NaN / an infinity with the given sign. *)
Definition is_nan (x : ef) : Prop := cls x = NaN.
Definition is_inf (x : ef) (b : bool) : Prop := cls x = Inf /\ neg x = b.

(** One unit of the last stored limb of a number whose first limb has
    weight 10^e. *)
Definition ulp (d10 e : Z) : R := powerRZ 10 (e - 8 * (elem_number d10 - 1)).

(** Truncation of a real towards zero. *)
Definition Ztrunc (r : R) : Z :=
  if Rlt_dec r 0 then (- Int_part (- r))%Z else Int_part r.

(** std::numeric_limits<e_float>::max(): 9.99...9 (digits10+2 nines in total)
    times 10^2147483616. *)
Definition max_value (d10 : Z) : R :=
  (10 - powerRZ 10 (- (d10 + 1))) * powerRZ 10 2147483616.

(** [r] is [s] with the part below the unit [q] cut off / rounded away from
    zero. *)
Definition cut_to (q s r : R) : Prop :=
  Rabs r <= Rabs s < Rabs r + q /\ 0 <= r * s /\ exists k, r = IZR k * q.
Definition raised_to (q s r : R) : Prop :=
  Rabs s <= Rabs r < Rabs s + q /\ 0 <= r * s /\ exists k, r = IZR k * q.

(** What the finite sum of two finite numbers should be: terms of equal sign
    are added and the sum is cut off after the last limb of the result; terms
    of different sign are subtracted and the difference is rounded away from
    zero at the last limb of the operand with the larger exponent.  Only an
    exactly vanishing sum gives zero. *)
Definition sum_rounded (d10 : Z) (u v r : ef) : Prop :=
  (0 <= value u * value v -> cut_to (ulp d10 (exp r)) (value u + value v) (value r)) /\
  (value u * value v < 0 ->
     raised_to (ulp d10 (Z.max (exp u) (exp v))) (value u + value v) (value r)) /\
  (value r = 0 -> value u + value v = 0).

(** ** Multiplication *)

(** Sum of the products u_0 v_j + u_1 v_(j-1) + ... + u_j v_0. *)
Definition column (u v : list Z) (j : nat) : Z :=
  fold_right Z.add 0%Z (map (fun i => nth (j - i) u 0%Z * nth i v 0%Z)%Z (seq 0 (S j))).

(** Schoolbook multiplication with unbounded integers: position [j-1] receives
    the last base 10^8 digit of column plus carry, for j = j1, ..., 1. *)
Fixpoint exact_school (j1 : nat) (u v : list Z) (carry : Z) : list Z * Z :=
  match j1 with
  | O => (u, carry)
  | S j =>
      let s := (carry + column u v j)%Z in
      exact_school j (firstn j u ++ (s mod 100000000)%Z :: skipn (S j) u) v (s / 100000000)%Z
  end.

(** The integer written with base 10^8 digits [l]. *)
Definition digits_to_Z (l : list Z) : Z := fold_left (fun a x => a * 100000000 + x)%Z l 0%Z.

(** Exponent of the product beyond the largest / below the smallest one. *)
Definition exponents_overflow (u v : ef) : Prop :=
  (0 <= exp u /\ 0 <= exp v /\ 2147483616 <= exp u + exp v)%Z.
Definition exponents_underflow (u v : ef) : Prop :=
  (exp u < 0 /\ exp v < 0 /\ exp u + exp v <= -2147483616)%Z.

(** ** Integers *)

(** [z] forced into the interval [lo, hi]. *)
Definition clamp (lo hi z : Z) : Z := Z.max lo (Z.min hi z).

(** [r] is the greatest integer not above [x] / the least not below it. *)
Definition is_floor (x r : R) : Prop := exists k, r = IZR k /\ IZR k <= x < IZR k + 1.
Definition is_ceil (x r : R) : Prop := exists k, r = IZR k /\ IZR k - 1 < x <= IZR k.

(** ** Division *)

(** A magnitude at least 26 decades away from both ends of the exponent
    range. *)
Definition in_range (r : R) : Prop :=
  powerRZ 10 (-2147483590) <= Rabs r <= powerRZ 10 2147483590.

(** ** Powers *)

(** Bound for the relative error of one multiplication (C09). *)
Definition product_error (d10 : Z) : R :=
  if (d10 <=? 4967)%Z then powerRZ 10 (- (d10 + 6)) else IZR (2500 * (d10 + 32)) * powerRZ 10 (- (d10 + 9)).

(** A magnitude at least 36 decades away from both ends of the exponent
    range. *)
Definition well_in_range (r : R) : Prop :=
  powerRZ 10 (-2147483580) <= Rabs r <= powerRZ 10 2147483580.
