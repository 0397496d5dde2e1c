(** * Specification: decimal literals and rounding.

    Independent of the operations of the model; only characters, digits, real
    numbers and the vocabulary of Spec.v. *)

From Coq Require Import ZArith List Bool Ascii Reals.
From Verif Require Import Model Spec.
Import ListNotations.
Open Scope R_scope.

(** The character of a decimal digit. *)
Definition digit_char (d : Z) : ascii := ascii_of_N (Z.to_N (48 + d)).

Definition is_decimal (d : Z) : Prop := (0 <= d <= 9)%Z.

(** The integer written with the decimal digits [l]. *)
Definition decimal_Z (l : list Z) : Z := fold_left (fun a d => a * 10 + d)%Z l 0%Z.

(** A decimal literal: an optional sign (true: '-'), digits, an optional point
    followed by further digits, and an optional exponent, consisting of the
    letter (true: 'E'), an optional sign and digits. *)
Record literal := mkliteral {
  l_sign  : option bool;
  l_int   : list Z;
  l_point : bool;
  l_frac  : list Z;
  l_exp   : option (bool * option bool * list Z)
}.

(** All digits are decimal digits, digits stand before or after the point, and
    an exponent has digits. *)
Definition valid_literal (l : literal) : Prop :=
  Forall is_decimal (l_int l) /\ Forall is_decimal (l_frac l) /\
  l_int l ++ l_frac l <> [] /\
  (l_point l = false -> l_frac l = []) /\
  (forall u s ds, l_exp l = Some (u, s, ds) -> Forall is_decimal ds /\ ds <> []).

Definition sign_text (s : option bool) : list ascii :=
  match s with None => [] | Some true => ["-"%char] | Some false => ["+"%char] end.

(** How a literal is written. *)
Definition text (l : literal) : list ascii :=
  sign_text (l_sign l) ++ map digit_char (l_int l) ++
  (if l_point l then "."%char :: map digit_char (l_frac l) else []) ++
  match l_exp l with
  | None => []
  | Some (upper, s, ds) => (if upper then "E"%char else "e"%char) :: sign_text s ++ map digit_char ds
  end.

Definition negative (s : option bool) : bool := match s with Some true => true | _ => false end.

(** The exponent of a literal. *)
Definition l_exponent (l : literal) : Z :=
  match l_exp l with
  | None => 0%Z
  | Some (_, s, ds) => if negative s then (- decimal_Z ds)%Z else decimal_Z ds
  end.

(** The number a literal denotes. *)
Definition literal_value (l : literal) : R :=
  (if negative (l_sign l) then -1 else 1) * IZR (decimal_Z (l_int l ++ l_frac l)) *
  powerRZ 10 (l_exponent l - Z.of_nat (length (l_frac l))).

(** [r] is the multiple of the unit [q] nearest to [s]; ties go away from
    zero. *)
Definition rounded_to (q s r : R) : Prop :=
  exists k, Rabs r = IZR k * q /\ IZR k * q - q / 2 <= Rabs s < IZR k * q + q / 2 /\ 0 <= r * s.

(** What reading the number [v] should give: zero below the exponent range,
    a signed infinity above it, and otherwise [v] cut off after the last limb,
    without losing leading digits. *)
Definition read_result (d : Z) (v : R) (r : ef) : Prop :=
  wf d r /\
  (v = 0 -> finite d r /\ value r = 0) /\
  (0 < Rabs v < powerRZ 10 (-2147483616) -> finite d r /\ value r = 0) /\
  (powerRZ 10 2147483624 <= v -> is_inf r false) /\
  (v <= - powerRZ 10 2147483624 -> is_inf r true) /\
  (powerRZ 10 (-2147483616) <= Rabs v < powerRZ 10 2147483624 ->
     finite d r /\ cut_to (ulp d (exp r)) v (value r) /\
     (forall k, powerRZ 10 k <= Rabs v -> powerRZ 10 k <= Rabs (value r))).

(** ** Printed texts *)

(** The decimal order of a number: the exponent of its leading digit, 0 for
    zero. *)
Definition decimal_order (v : R) (k : Z) : Prop :=
  (v = 0 /\ k = 0%Z) \/ powerRZ 10 k <= Rabs v < powerRZ 10 (k + 1).

(** Text [t] in a field of the given width. *)
Definition justified (c : ascii) (width : Z) (left : bool) (t : list ascii) : list ascii :=
  let f := repeat c (Z.to_nat width - length t) in
  if left then t ++ f else f ++ t.

(** The sign that is printed. *)
Definition shown_sign (neg showpos : bool) : option bool :=
  if neg then Some true else if showpos then Some false else None.

(** No zero at the end of the digits after the point. *)
Definition trimmed (l : list Z) : Prop := l = [] \/ last l 0%Z <> 0%Z.

(** Scientific: one digit before the point, different from zero unless the
    number is zero, and a signed exponent whose digits come in threes. *)
Definition scientific (upper : bool) (v : R) (l : literal) : Prop :=
  length (l_int l) = 1%nat /\ (v <> 0 -> l_int l <> [0%Z]) /\
  exists s ds, l_exp l = Some (upper, Some s, ds) /\ (length ds mod 3 = 0)%nat.

(** Fixed: no exponent, and no superfluous zeros before the point. *)
Definition positional (l : literal) : Prop :=
  l_exp l = None /\ (l_int l = [0%Z] \/ hd 0%Z (l_int l) <> 0%Z).
