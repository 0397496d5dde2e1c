(** * Model of the powers of integers with tables: src/utility/util_power_j_pow_x.cpp

    The functions are templates; here they are parameterised by the type T of
    numbers (e_float or complex<e_float>), the type E of logarithms (e_float) and their
    operations.  The result None stands for a call that does not end or is
    undefined in one of the called functions. *)

From Coq Require Import ZArith List Bool.
From Verif Require Import Model ModelPrime.
Import ListNotations.
Open Scope Z_scope.

Definition obnd {A B : Type} (o : option A) (f : A -> option B) : option B := match o with Some a => f a | None => None end.

(* std::map<std::uint32_t, A>: the pairs that were inserted, the latest first.  A key
   is inserted only after find() failed *)
Definition table (A : Type) : Type := list (Z * A).
Fixpoint find_key {A : Type} (m : table A) (n : Z) : option A :=
  match m with
  | [] => None
  | (k, v) :: r => if k =? n then Some v else find_key r n
  end.

Section Powers.
Context {T E : Type}.
Variables (one : T) (mul : T -> T -> T) (sq : T -> T).
(* T(n); ef::detail::pown_template; exp; x * l for a logarithm l; ef::log(e_float(n)) *)
Variables (of_n : Z -> T) (pown : T -> Z -> option T) (exp : T -> option T) (scale : T -> E -> T) (log_n : Z -> option E).
(* lines 66-71: the integer x, if the imaginary part of x is 0 and its real part is an
   integer between int64_min() and int64_max(), both excluded *)
Variable integer_of : T -> option Z.
(* ef::prime_factors *)
Variable factors_of : Z -> option (list (Z * Z)).

(* 19-37: the logarithm of n and the new contents of the static map *)
Definition logn (lm : table E) (n : Z) : option (E * table E) :=
  match find_key lm n with
  | Some l => Some (l, lm)
  | None => obnd (log_n n) (fun l => Some (l, (n, l) :: lm))
  end.

(* 62-84: n^x, not yet in the map *)
Definition compute (x : T) (lm : table E) (n : Z) : option (T * table E) :=
  match integer_of x with
  | Some k => obnd (pown (of_n n) k) (fun v => Some (v, lm))
  | None => obnd (logn lm n) (fun '(l, lm') => obnd (exp (scale x l)) (fun v => Some (v, lm')))
  end.

(* 58-92: n^x from the map, or computed and inserted *)
Definition lookup (x : T) (lm : table E) (pm : table T) (n : Z) : option (T * table E * table T) :=
  match find_key pm n with
  | Some v => Some (v, lm, pm)
  | None => obnd (compute x lm n) (fun '(v, lm') => Some (v, lm', (n, v) :: pm))
  end.

(* 95-101: v^p *)
Definition expand (v : T) (p : Z) : option T :=
  if p =? 1 then Some v
  else if p =? 2 then Some (sq v)
  else if p =? 3 then Some (mul v (mul v v))
  else obnd (pown v (p - 1)) (fun w => Some (mul v w)).

(* 51-104: the loop over the prime factors *)
Fixpoint pf_loop (x : T) (pf : list (Z * Z)) (jpx : T) (lm : table E) (pm : table T) : option (T * table E * table T) :=
  match pf with
  | [] => Some (jpx, lm, pm)
  | (n, p) :: r =>
      obnd (lookup x lm pm n) (fun '(v, lm', pm') =>
      obnd (expand v p) (fun w => pf_loop x r (mul jpx w) lm' pm'))
  end.

(* 39-107: the result and the new contents of both maps *)
Definition j_pow_x (j : Z) (x : T) (lm : table E) (pm : table T) : option (T * table E * table T) :=
  obnd (factors_of j) (fun pf => pf_loop x pf one lm pm).

(* A history of the program: for every x in turn a new map is used for several j,
   as in zeta.cpp 115-230; the map of logarithms persists.  The results in order. *)
Fixpoint calls (x : T) (js : list Z) (lm : table E) (pm : table T) : option (list T * table E) :=
  match js with
  | [] => Some ([], lm)
  | j :: r =>
      obnd (j_pow_x j x lm pm) (fun '(v, lm', pm') =>
      obnd (calls x r lm' pm') (fun '(vs, lm'') => Some (v :: vs, lm'')))
  end.
Fixpoint session (h : list (T * list Z)) (lm : table E) : option (list (list T)) :=
  match h with
  | [] => Some []
  | (x, js) :: r =>
      obnd (calls x js lm []) (fun '(vs, lm') =>
      obnd (session r lm') (fun rs => Some (vs :: rs)))
  end.

(* a call with empty maps *)
Definition j_pow_x_fresh (j : Z) (x : T) : option T := obnd (j_pow_x j x [] []) (fun '(v, _, _) => Some v).

End Powers.
