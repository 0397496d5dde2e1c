(** * Model, part 7: prime numbers and prime factors.

    Paths relative to /repo/libs/e_float/src/functions/integer. *)

From Coq Require Import ZArith List Bool FMapPositive.
From Flocq Require Import BinarySingleNaN.
From Verif Require Import Model ModelDiv.
Import ListNotations.
Open Scope Z_scope.

(** ** prime.cpp

    std::vector<bool> is represented by the set of the positions that are
    true. *)
Definition bits := PositiveMap.t unit.
Definition all_false : bits := PositiveMap.empty unit.
(* std::vector<bool>::operator[] for reading and for writing true *)
Definition is_set (v : bits) (j : Z) : bool := PositiveMap.mem (Z.to_pos (j + 1)) v.
Definition set_true (v : bits) (j : Z) : bits := PositiveMap.add (Z.to_pos (j + 1)) tt v.

(* 76-79: for(j = i2; j < limit; j += i) sieve[j] = true.  [None]: the loop does
   not end within [fuel] rounds. *)
Fixpoint mark (fuel : nat) (limit i j : Z) (v : bits) : option bits :=
  match fuel with
  | O => None
  | S f => if j <? limit then mark f limit i (u32 (j + i)) (set_true v j) else Some v
  end.

(* 72-83: while((i2 = i * i) < limit).  The same [fuel] is given to the inner
   loops. *)
Fixpoint sift (fuel inner : nat) (limit i : Z) (v : bits) : option bits :=
  match fuel with
  | O => None
  | S f =>
      let i2 := u32 (i * i) in
      if i2 <? limit then
        if is_set v i then sift f inner limit (u32 (i + 1)) v
        else
          match mark inner limit i i2 v with
          | Some v' => sift f inner limit (u32 (i + 1)) v'
          | None => None
          end
      else Some v
  end.

(* 19-43 and 88-90: the functor Inserter applied to the positions from
   start_index = 2 on; [count] positions from [i] on are left *)
Fixpoint collect (count : nat) (i : Z) (v : bits) : list Z :=
  match count with
  | O => []
  | S c => if is_set v i then collect c (i + 1) v else i :: collect c (i + 1) v
  end.

(* 67-92: the sieve for a given limit *)
Definition generate (fuel : nat) (n limit : Z) : option (list Z) :=
  match sift fuel fuel limit 2 all_false with
  | Some v =>
      let primes := collect (Z.to_nat (limit - 2)) 2 v in
      Some (firstn (Z.to_nat n) (primes ++ repeat 0 (Z.to_nat n)))
  | None => None
  end.

(* the double nearest to 1.8 *)
Definition dbl_18 : double := binary_normalize 53 1024 d_prec d_emax mode_NE 8106479329266893 (-52) false.

(* 53-63: the limit of the sieve; std::log is a parameter because the language
   does not define its accuracy *)
Definition sieve_limit (log : double -> double) (n : Z) : Z :=
  let xmax := d_of_Z 4294967295 in
  let xn := d_of_Z (Z.max 100 n) in
  let logn := log xn in
  let loglogn := log logn in
  let top := dmul xn (dadd (dsub (dadd logn loglogn) (d_of_Z 1)) (ddiv (dmul dbl_18 loglogn) logn)) in
  let xlim := if dlt xmax top then xmax else top in
  let nlim := u32 (Btrunc xlim) in
  Z.max n nlim.

(* 46-93 *)
Definition generator (log : double -> double) (fuel : nat) (n : Z) : option (list Z) :=
  generate fuel n (sieve_limit log n).

(* 95-114: the static table *)
Definition prime_data (log : double -> double) (fuel : nat) : option (list Z) := generator log fuel 6550.

(* 117-132; the size of the static table is 6550 *)
Definition prime_list (log : double -> double) (fuel : nat) (n : Z) : option (list Z) :=
  if n <? 6550 then
    match prime_data log fuel with
    | Some t => Some (firstn (Z.to_nat n) t)
    | None => None
    end
  else generator log fuel n.

(** ** prime_factor.cpp *)

(* 21-34: IsPrimeFactor; the result is the quotient if p divides np *)
Definition is_prime_factor (np p : Z) : option Z :=
  let q := np / p in
  let r := u32 (np - u32 (q * p)) in
  if r =? 0 then Some q else None.

(* 57-60: while(IsPrimeFactor(np, p)) ++ip.y.  [None]: the loop does not end
   within [fuel] rounds. *)
Fixpoint divide_out (fuel : nat) (np p y : Z) : option (Z * Z) :=
  match fuel with
  | O => None
  | S f =>
      match is_prime_factor np p with
      | Some q => divide_out f q p (u32 (y + 1))
      | None => Some (np, y)
      end
  end.

(* 49-76; [None] also for a division by zero *)
Fixpoint factors_loop (data : list Z) (sqrt_n np : Z) (pf : list (Z * Z)) : option (list (Z * Z)) :=
  match data with
  | [] => Some pf
  | p :: rest =>
      if p =? 0 then None
      else
        match
          match is_prime_factor np p with
          | Some q =>
              match divide_out 40 q p 1 with
              | Some (np', y) => Some (np', pf ++ [(p, y)])
              | None => None
              end
          | None => Some (np, pf)
          end
        with
        | None => None
        | Some (np, pf) =>
            if np / p <=? p then Some (pf ++ [(np, 1)])
            else if (np =? 1) || (p >=? sqrt_n) then Some pf
            else factors_loop rest sqrt_n np pf
        end
  end.

(* the double 0.5 *)
Definition dbl_half : double := binary_normalize 53 1024 d_prec d_emax mode_NE 1 (-1) false.

(* 36-77 *)
Definition factors (data : list Z) (n : Z) : option (list (Z * Z)) :=
  let sqrt_n := u32 (Btrunc (dadd (dsqrt (d_of_Z n)) dbl_half)) in
  factors_loop data sqrt_n n [].

(* 104-119: the entries of the table from [i] on; [next] are the primes from
   the iterator it_next_prime on *)
Fixpoint factor_table (count : nat) (data : list Z) (i : Z) (next : list Z) : list (option (list (Z * Z))) :=
  match count with
  | O => []
  | S c =>
      match next with
      | p :: next' =>
          if i =? p then Some [(i, 1)] :: factor_table c data (i + 1) next'
          else factors data i :: factor_table c data (i + 1) next
      | [] => factors data i :: factor_table c data (i + 1) next
      end
  end.

(* 97-102: std::find *)
Fixpoint find_from (x : Z) (l : list Z) : list Z :=
  match l with
  | [] => []
  | y :: t => if y =? x then l else find_from x t
  end.

(* 85-120: prime_factors_list.  SIMPLIFIED: one entry for which the computation
   would not end stands for itself, not for the whole table *)
Definition prime_factors_list (data : list Z) : list (option (list (Z * Z))) :=
  Some [(0, 1)] :: Some [(1, 1)] :: Some [(2, 1)] :: Some [(3, 1)] ::
  factor_table 9996 data 4 (find_from 5 data).

(* 80-130 *)
Definition prime_factors (data : list Z) (n : Z) : option (list (Z * Z)) :=
  if n <? 10000 then nth (Z.to_nat n) (prime_factors_list data) None
  else factors data n.
