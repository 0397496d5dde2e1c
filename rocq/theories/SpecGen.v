(** * Specification, part 3: evaluation far from the ends of the exponent range,
      rising factorials and power series. *)

From Coq Require Import ZArith List Reals.
Open Scope R_scope.

(** Zero, or a magnitude within m decades of one. *)
Definition moderate (m : Z) (r : R) : Prop :=
  r = 0 \/ powerRZ 10 (- m) <= Rabs r <= powerRZ 10 m.

(** x (x+1) ... (x+n-1) *)
Fixpoint rising_factorial (x : R) (n : nat) : R :=
  match n with O => 1 | S m => rising_factorial x m * (x + INR m) end.

(** Product of a list. *)
Definition prod_list (l : list R) : R := fold_right Rmult 1 l.

(** Term and partial sum of the hypergeometric series with upper parameters a
    and lower parameters b. *)
Definition hyper_term (a b : list R) (x : R) (k : nat) : R :=
  prod_list (map (fun c => rising_factorial c k) a) / prod_list (map (fun c => rising_factorial c k) b) * (x ^ k / INR (fact k)).
Definition hyper_sum (a b : list R) (x : R) (n : nat) : R := sum_f_R0 (hyper_term a b x) n.

(** The polynomial with coefficients c, lowest degree first. *)
Fixpoint poly (c : list R) (x : R) : R :=
  match c with nil => 0 | a :: t => a + x * poly t x end.

(** Sum of the areas of n trapezoids of equal width between a and b. *)
Definition trapezoids (f : R -> R) (a b : R) (n : nat) : R :=
  let h := (b - a) / INR n in
  sum_f_R0 (fun j => (f (a + INR j * h) + f (a + INR (S j) * h)) / 2 * h) (pred n).

(** x lies between a and b, in either order. *)
Definition between (a b x : R) : Prop := Rmin a b <= x <= Rmax a b.

(** The comparisons of real numbers as booleans. *)
Definition rltb (x y : R) : bool := if Rlt_dec x y then true else false.
Definition rleb (x y : R) : bool := if Rle_dec x y then true else false.
Definition rzero (x : R) : bool := if Req_EM_T x 0 then true else false.
(** |x| < |y| *)
Definition rltabs (x y : R) : bool := if Rlt_dec (Rabs x) (Rabs y) then true else false.

(** One step of Newton's method for the function and derivative [fd]. *)
Definition newton_step (fd : R -> R * R) (x : R) : R := x - fst (fd x) / snd (fd x).

(** Two trapezoid sums with 2^k and 2^(k+1) panels agree up to eps, relatively. *)
Definition trap_close (f : R -> R) (a b eps : R) (k : nat) : Prop :=
  Rabs (trapezoids f a b (2 ^ k) / trapezoids f a b (2 ^ S k) - 1) < eps.

(** Points with increasing abscissa, and the line through two of them. *)
Definition ordered (p q : R * R) : Prop := fst p < fst q.
Definition chord (p q : R * R) (x : R) : R := snd p + (x - fst p) * (snd q - snd p) / (fst q - fst p).

(** The outcome of summing the series with the stopping test [small]: the partial
    sum at the first index from 20 on whose next term passes the test, if there
    is one up to 9998, and None otherwise. *)
Definition series_stops (small : R -> R -> bool) (a b : list R) (x : R) (o : option R) : Prop :=
  match o with
  | Some s => exists n, (20 <= Z.of_nat n <= 9998)%Z /\ s = hyper_sum a b x n /\
      small (hyper_term a b x (S n)) (hyper_sum a b x n) = true /\
      forall m, (20 <= m < n)%nat -> small (hyper_term a b x (S m)) (hyper_sum a b x m) = false
  | None => forall m, (20 <= Z.of_nat m <= 9998)%Z -> small (hyper_term a b x (S m)) (hyper_sum a b x m) = false
  end.
