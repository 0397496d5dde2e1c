(** * Model, part 6: objects in memory; construction, destruction, copies,
      moves, and programs made of them.

    Paths as in Model.v. *)

From Coq Require Import ZArith List Bool Arith.
From Verif Require Import Model ModelDiv ModelStr ModelPow.
Import ListNotations.
Open Scope Z_scope.

(** ** The array class of the limbs: utility/util_dynamic_array.h

    Memory is a partial map from addresses to blocks of numbers.  Arrays have
    names; [None] is a name without a live array. *)

(* utility/util_dynamic_array.h 240-241: elem_count and elems; [None] is
   nullptr *)
Record arr := mkarr { elem_count : nat; elems : option nat }.

(* the heap behind utility/util_dynamic_array.h and the live arrays *)
Record memory := mkmem {
  blocks : nat -> option (list Z);
  next   : nat;
  arrays : nat -> option arr
}.

(* a store to one address or name *)
Definition put {A : Type} (m : nat -> option A) (k : nat) (v : option A) : nat -> option A :=
  fun i => if Nat.eqb i k then v else m i.

(* std::allocator_traits::allocate followed by the construction of the
   elements: a block at an address that was never used before.  SIMPLIFIED:
   allocation does not fail and addresses are not used again after they were
   given back. *)
Definition alloc (m : memory) (l : list Z) : memory * nat :=
  (mkmem (put (blocks m) (next m) (Some l)) (S (next m)) (arrays m), next m).

(* 121-130 and 150-161: destruction of [elem_count] elements from [elems] on
   and std::allocator_traits::deallocate.  For a null pointer and count 0
   nothing happens (operator delete of a null pointer).  Giving back a block
   that is not allocated, or with another size, is undefined. *)
Definition release (m : memory) (a : arr) : outcome memory :=
  match elems a with
  | None => if Nat.eqb (elem_count a) 0 then Defined m else Undefined
  | Some p =>
      match blocks m p with
      | Some l =>
          if Nat.eqb (length l) (elem_count a)
          then Defined (mkmem (put (blocks m) p None) (next m) (arrays m)) else Undefined
      | None => Undefined
      end
  end.

(* std::copy(src, src + n, ...): reading n elements from the pointer on *)
Definition read_n (m : memory) (p : option nat) (n : nat) : outcome (list Z) :=
  match n, p with
  | O, _ => Defined []
  | _, None => Undefined
  | _, Some q =>
      match blocks m q with
      | Some l => if Nat.leb n (length l) then Defined (firstn n l) else Undefined
      | None => Undefined
      end
  end.

(* writing the elements [l] from the pointer on *)
Definition write_l (m : memory) (p : option nat) (l : list Z) : outcome memory :=
  match l, p with
  | [], _ => Defined m
  | _, None => Undefined
  | _, Some q =>
      match blocks m q with
      | Some old =>
          if Nat.leb (length l) (length old)
          then Defined (mkmem (put (blocks m) q (Some (l ++ skipn (length l) old))) (next m) (arrays m))
          else Undefined
      | None => Undefined
      end
  end.

(* assignment to the members of one array (utility/util_dynamic_array.h 240-241) *)
Definition set_array (m : memory) (x : nat) (a : option arr) : memory :=
  mkmem (blocks m) (next m) (put (arrays m) x a).

(* calls of the public members of utility/util_dynamic_array.h 30-238 *)
Inductive array_command :=
| AInit (x : nat) (l : list Z)
| ACopy (x y : nat)
| AMove (x y : nat)
| ADestroy (x : nat)
| AAssign (x y : nat)
| AMoveAssign (x y : nat)
| AWrite (x i : nat) (v : Z)
| ASwap (x y : nat).

(* constructors from a count and a value (39-57), a range (75-89) and an
   initializer list (91-104): a new array with the elements [l] *)
Definition array_init (m : memory) (x : nat) (l : list Z) : memory :=
  match l with
  | [] => set_array m x (Some (mkarr 0 None))
  | _ => let (m', p) := alloc m l in set_array m' x (Some (mkarr (length l) (Some p)))
  end.

(* 59-73: copy constructor *)
Definition array_copy (m : memory) (x y : nat) : outcome memory :=
  match arrays m y with
  | None => Undefined
  | Some b =>
      match read_n m (elems b) (elem_count b) with
      | Defined l => Defined (array_init m x l)
      | Undefined => Undefined
      end
  end.

(* 107-114: move constructor *)
Definition array_move (m : memory) (x y : nat) : outcome memory :=
  match arrays m y with
  | None => Undefined
  | Some b => Defined (set_array (set_array m x (Some b)) y (Some (mkarr 0 None)))
  end.

(* 116-131: destructor *)
Definition array_destroy (m : memory) (x : nat) : outcome memory :=
  match arrays m x with
  | None => Undefined
  | Some a =>
      match release m a with
      | Defined m' => Defined (set_array m' x None)
      | Undefined => Undefined
      end
  end.

(* 133-144: copy assignment *)
Definition array_assign (m : memory) (x y : nat) : outcome memory :=
  match arrays m x, arrays m y with
  | Some a, Some b =>
      if Nat.eqb x y then Defined m
      else
        match read_n m (elems b) (Nat.min (elem_count a) (elem_count b)) with
        | Defined l => write_l m (elems a) l
        | Undefined => Undefined
        end
  | _, _ => Undefined
  end.

(* 146-170: move assignment; there is no test for self assignment: the block is
   given back and the (now dangling) pointer is copied to itself before it is
   set to null *)
Definition array_move_assign (m : memory) (x y : nat) : outcome memory :=
  match arrays m x, arrays m y with
  | Some a, Some b =>
      match release m a with
      | Defined m' => Defined (set_array (set_array m' x (Some b)) y (Some (mkarr 0 None)))
      | Undefined => Undefined
      end
  | _, _ => Undefined
  end.

(* 197-198: operator[] used for writing *)
Definition array_write (m : memory) (x i : nat) (v : Z) : outcome memory :=
  match arrays m x with
  | None => Undefined
  | Some a =>
      match elems a with
      | None => Undefined
      | Some p =>
          match blocks m p with
          | Some l =>
              if Nat.ltb i (length l)
              then Defined (mkmem (put (blocks m) p (Some (upd i v l))) (next m) (arrays m)) else Undefined
          | None => Undefined
          end
      end
  end.

(* 215-225: swap *)
Definition array_swap (m : memory) (x y : nat) : outcome memory :=
  match arrays m x, arrays m y with
  | Some a, Some b => Defined (set_array (set_array m x (Some b)) y (Some a))
  | _, _ => Undefined
  end.

(* one statement; constructing under the name of a live array is no program *)
Definition array_step (m : memory) (c : array_command) : outcome memory :=
  let fresh x := match arrays m x with None => true | Some _ => false end in
  match c with
  | AInit x l => if fresh x then Defined (array_init m x l) else Undefined
  | ACopy x y => if fresh x then array_copy m x y else Undefined
  | AMove x y => if fresh x then array_move m x y else Undefined
  | ADestroy x => array_destroy m x
  | AAssign x y => array_assign m x y
  | AMoveAssign x y => array_move_assign m x y
  | AWrite x i v => array_write m x i v
  | ASwap x y => array_swap m x y
  end.

(* a sequence of calls *)
Fixpoint array_run (m : memory) (h : list array_command) : outcome memory :=
  match h with
  | [] => Defined m
  | c :: t => match array_step m c with Defined m' => array_run m' t | Undefined => Undefined end
  end.

(* the state before any construction *)
Definition no_memory : memory := mkmem (fun _ => None) 0 (fun _ => None).

(** ** Objects of class e_float

    Objects have names; [None] is a name without a live object.  An object
    whose list of limbs is empty was moved from.  The effect of the array
    operations on the limbs is the one proved for the memory model above
    (theorem C35_array_memory). *)

(* the live e_float objects by name *)
Definition store := nat -> option ef.

(* efx/e_float_efx.h 145-150: copy constructor *)
Definition obj_copy (x : ef) : ef := x.

(* what is left of the source of a move: efx/e_float_efx.h 152-157 and
   efx/e_float_efx.cpp 404-413 only take the limbs *)
Definition moved (x : ef) : ef := mkef [] (exp x) (neg x) (cls x) (prec x).

(* efx/e_float_efx.cpp 389-402 for different objects: the array assignment
   copies as many limbs as both arrays have *)
Definition obj_assign (x v : ef) : ef :=
  let n := Nat.min (length (data x)) (length (data v)) in
  mkef (firstn n (data v) ++ skipn n (data x)) (exp v) (neg v) (cls v) (prec v).

(* my_data is not empty: the object was not moved from (utility/util_dynamic_array.h 109-114) *)
Definition has_limbs (x : ef) : bool := match data x with [] => false | _ => true end.

(* where the value of a new object comes from *)
Inductive source :=
| SDefault
| SUnsigned (n : Z)
| SSigned (n : Z)
| SParts (m : double) (e : Z)
| SText (s : str)
| SClass (c : fpclass)
| SCopy (y : nat)
| SMove (y : nat).

(* functions returning a new object, with named arguments *)
Inductive expression :=
| EPlus (y z : nat) | EMinus (y z : nat) | ETimes (y z : nat) | EOver (y z : nat)
| EFabs (y : nat) | EFloor (y : nat) | ECeil (y : nat)
| EIntegerPart (y : nat) | EDecimalPart (y : nat)
| ESqrt (y : nat) | EPow (y : nat) (n : Z) | EPow2 (n : Z) | ELdexp (y : nat) (n : Z)
| EFmod (y z : nat).

(* one statement of a program that uses e_float (e_float.h, efx/e_float_efx.h) *)
Inductive command :=
| New (x : nat) (s : source)
| Destroy (x : nat)
| Assign (x y : nat)
| MoveAssign (x y : nat)
| Swap (x y : nat)
| Let (x : nat) (e : expression)
| AddTo (x y : nat) | SubFrom (x y : nat) | MulBy (x y : nat) | DivBy (x y : nat)
| AddU (x : nat) (n : Z) | SubU (x : nat) (n : Z) | MulU (x : nat) (n : Z) | DivU (x : nat) (n : Z)
| AddS (x : nat) (n : Z) | SubS (x : nat) (n : Z) | MulS (x : nat) (n : Z) | DivS (x : nat) (n : Z)
| Negate (x : nat) | Increment (x : nat) | Decrement (x : nat) | Invert (x : nat) | SquareRoot (x : nat)
| Precision (x : nat) (n : Z)
| Read (x : nat) (s : str).

Section Programs.
Variable d10 : Z.

(* a live object whose limbs are read or written.  SIMPLIFIED: no command is
   considered to succeed on an object without limbs, although some return
   before they touch the limbs of an infinity or NaN. *)
Definition use (s : store) (x : nat) : outcome ef :=
  match s x with
  | Some v => if has_limbs v then Defined v else Undefined
  | None => Undefined
  end.

(* a live object, with or without limbs *)
Definition live (s : store) (x : nat) : outcome ef :=
  match s x with Some v => Defined v | None => Undefined end.

(* sequencing: undefined behaviour stays undefined *)
Definition obind {A B : Type} (x : outcome A) (f : A -> outcome B) : outcome B :=
  match x with Defined a => f a | Undefined => Undefined end.

(* e_float.h 93-97, e_float.cpp, functions/elementary/*.cpp: the value of an expression.
   operator+(u, v) is e_float(u) += v, and so on. *)
Definition eval (s : store) (e : expression) : outcome ef :=
  let un y f := obind (use s y) (fun v => Defined (f v)) in
  let bin y z f := obind (use s y) (fun u => obind (use s z) (fun v => Defined (f u v))) in
  match e with
  | EPlus y z => bin y z (add d10)
  | EMinus y z => bin y z (sub d10)
  | ETimes y z => bin y z (mul d10)
  | EOver y z => bin y z (div d10)
  | EFabs y => un y fabs
  | EFloor y => un y (floor d10)
  | ECeil y => un y (ceil d10)
  | EIntegerPart y => un y (integer_part d10)
  | EDecimalPart y => un y (decimal_part d10)
  | ESqrt y => un y (sqrt d10)
  | EPow y n => obind (use s y) (fun v => pow_int d10 v n)
  | EPow2 n => pow2 d10 n
  | ELdexp y n => obind (use s y) (fun v => ldexp d10 v n)
  | EFmod y z => bin y z (fmod d10)
  end.

(* efx/e_float_efx.cpp 789-814 for x /= x: at line 801 my_neg and v.my_neg are
   the same object *)
Definition div_self (x : ef) : ef :=
  if same_magnitude x x then one d10 else mul d10 x (inv d10 x).

(* an io result as an outcome; exceptions end the program and are not
   considered further *)
Definition io_outcome {A : Type} (x : io A) : outcome A :=
  match x with Ok a => Defined a | _ => Undefined end.

(* x = f(x) for an object with limbs *)
Definition update (s : store) (x : nat) (f : ef -> outcome ef) : outcome store :=
  obind (use s x) (fun v => obind (f v) (fun r => Defined (put s x (Some r)))).

(* x op= y; [same] is the operator for x op= x *)
Definition compound (s : store) (x y : nat) (f : ef -> ef -> ef) (same : ef -> ef) : outcome store :=
  obind (use s y) (fun w => update s x (fun v => Defined (if Nat.eqb x y then same v else f v w))).

(* the constructors of efx/e_float_efx.h 85-170 *)
Definition construct (s : store) (x : nat) (src : source) : outcome store :=
  match src with
  | SDefault => Defined (put s x (Some (ef_default d10)))
  | SUnsigned n => Defined (put s x (Some (of_ull d10 n)))
  | SSigned n => Defined (put s x (Some (of_sll d10 n)))
  | SParts m e => obind (ctor_double d10 m e) (fun r => Defined (put s x (Some r)))
  | SText t => obind (io_outcome (of_string d10 t)) (fun r => Defined (put s x (Some r)))
  | SClass c => Defined (put s x (Some (mkef (repeat 0 (Nn d10)) 0 false c (N d10))))
  | SCopy y => obind (live s y) (fun v => Defined (put s x (Some (obj_copy v))))
  | SMove y => obind (live s y) (fun v => Defined (put (put s x (Some v)) y (Some (moved v))))
  end.

(* one statement; constructing under the name of a live object is no program *)
Definition step (s : store) (c : command) : outcome store :=
  match c with
  | New x src => match s x with None => construct s x src | Some _ => Undefined end
  | Destroy x => obind (live s x) (fun _ => Defined (put s x None))
  | Assign x y =>
      obind (live s x) (fun v => obind (live s y) (fun w =>
        Defined (if Nat.eqb x y then s else put s x (Some (obj_assign v w)))))
  | MoveAssign x y =>
      obind (live s x) (fun _ => obind (live s y) (fun w =>
        Defined (put (put s x (Some w)) y (Some (moved w)))))
  | Swap x y =>
      (* efx/e_float_efx.cpp 986-996 *)
      obind (live s x) (fun v => obind (live s y) (fun w =>
        if Nat.eqb x y then Defined s
        else Defined (put (put s x (Some (obj_assign v w))) y (Some (obj_assign w (obj_copy v))))))
  | Let x e => obind (live s x) (fun _ => obind (eval s e) (fun r => Defined (put s x (Some r))))
  | AddTo x y => compound s x y (add d10) (fun v => add d10 v v)
  | SubFrom x y => compound s x y (sub d10) (sub_self d10)
  | MulBy x y => compound s x y (mul d10) (mul_self d10)
  | DivBy x y => compound s x y (div d10) div_self
  | AddU x n => update s x (fun v => Defined (add_ull d10 v n))
  | SubU x n => update s x (fun v => Defined (sub_ull d10 v n))
  | MulU x n => update s x (fun v => Defined (mul_ull d10 v n))
  | DivU x n => update s x (fun v => Defined (div_ull d10 v n))
  | AddS x n => update s x (fun v => add_sll d10 v n)
  | SubS x n => update s x (fun v => sub_sll d10 v n)
  | MulS x n => update s x (fun v => mul_sll d10 v n)
  | DivS x n => update s x (fun v => div_sll d10 v n)
  | Negate x => update s x (fun v => Defined (negate v))
  | Increment x => update s x (fun v => Defined (pre_inc d10 v))
  | Decrement x => update s x (fun v => Defined (pre_dec d10 v))
  | Invert x => update s x (fun v => Defined (inv d10 v))
  | SquareRoot x => update s x (fun v => Defined (sqrt d10 v))
  | Precision x n => obind (live s x) (fun v => Defined (put s x (Some (precision d10 v n))))
  | Read x t => update s x (fun v => io_outcome (rd_string d10 v t))
  end.

(* a sequence of statements *)
Fixpoint run (s : store) (h : list command) : outcome store :=
  match h with
  | [] => Defined s
  | c :: t => match step s c with Defined s' => run s' t | Undefined => Undefined end
  end.

(* the state before any construction *)
Definition no_objects : store := fun _ => None.

End Programs.
