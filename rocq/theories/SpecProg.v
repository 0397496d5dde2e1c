(** * Specification: programs over plain values.

    What the statements of a program mean if a variable is just a number: no
    storage, no limbs to be copied or moved.  A name has a value or it has none
    (there is no such object, or its value was moved away). *)

From Coq Require Import ZArith List Bool Arith.
From Verif Require Import Model ModelDiv ModelStr ModelPow ModelObj.
Import ListNotations.

Definition values := nat -> option ef.
Definition v_put (a : values) (x : nat) (v : option ef) : values := fun i => if Nat.eq_dec i x then v else a i.

Definition lift {A : Type} (r : outcome A) : option A := match r with Defined v => Some v | Undefined => None end.
Definition lift_io {A : Type} (r : io A) : option A := match r with Ok v => Some v | _ => None end.

(** the value of an expression *)
Definition v_eval (d : Z) (a : values) (e : expression) : option ef :=
  let un y (f : ef -> option ef) := match a y with Some v => f v | None => None end in
  let bin y z (f : ef -> ef -> ef) := match a y, a z with Some u, Some v => Some (f u v) | _, _ => None end in
  match e with
  | EPlus y z => bin y z (add d) | EMinus y z => bin y z (sub d) | ETimes y z => bin y z (mul d) | EOver y z => bin y z (div d)
  | EFmod y z => bin y z (fmod d)
  | EFabs y => un y (fun v => Some (fabs v)) | EFloor y => un y (fun v => Some (floor d v)) | ECeil y => un y (fun v => Some (ceil d v))
  | EIntegerPart y => un y (fun v => Some (integer_part d v)) | EDecimalPart y => un y (fun v => Some (decimal_part d v))
  | ESqrt y => un y (fun v => Some (sqrt d v))
  | EPow y n => un y (fun v => lift (pow_int d v n)) | EPow2 n => lift (pow2 d n) | ELdexp y n => un y (fun v => lift (ldexp d v n))
  end.

(** the value of a constructor that takes no other object *)
Definition v_const (d : Z) (src : source) : option ef :=
  match src with
  | SDefault => Some (mkef (repeat 0%Z (Nn d)) 0 false Finite (elem_number d))
  | SUnsigned n => Some (of_ull d n) | SSigned n => Some (of_sll d n)
  | SParts m e => lift (ctor_double d m e) | SText t => lift_io (of_string d t)
  | SClass c => Some (mkef (repeat 0%Z (Nn d)) 0 false c (elem_number d))
  | SCopy _ | SMove _ => None
  end.

(** one statement *)
Definition v_step (d : Z) (a : values) (c : command) : option values :=
  let set x (f : ef -> option ef) :=
    match a x with Some v => match f v with Some r => Some (v_put a x (Some r)) | None => None end | None => None end in
  let op x y f self :=
    match a x, a y with Some v, Some w => Some (v_put a x (Some (if Nat.eq_dec x y then self v else f v w))) | _, _ => None end in
  match c with
  | New x (SCopy y) | Assign x y => Some (v_put a x (a y))
  | New x (SMove y) | MoveAssign x y => Some (v_put (v_put a x (a y)) y None)
  | New x src => match v_const d src with Some r => Some (v_put a x (Some r)) | None => None end
  | Destroy x => Some (v_put a x None)
  | Swap x y => Some (v_put (v_put a x (a y)) y (a x))
  | Let x e => match v_eval d a e with Some r => Some (v_put a x (Some r)) | None => None end
  | AddTo x y => op x y (add d) (fun v => add d v v)
  | SubFrom x y => op x y (sub d) (sub_self d)
  | MulBy x y => op x y (mul d) (mul_self d)
  | DivBy x y => op x y (div d) (div_self d)
  | AddU x n => set x (fun v => Some (add_ull d v n)) | SubU x n => set x (fun v => Some (sub_ull d v n))
  | MulU x n => set x (fun v => Some (mul_ull d v n)) | DivU x n => set x (fun v => Some (div_ull d v n))
  | AddS x n => set x (fun v => lift (add_sll d v n)) | SubS x n => set x (fun v => lift (sub_sll d v n))
  | MulS x n => set x (fun v => lift (mul_sll d v n)) | DivS x n => set x (fun v => lift (div_sll d v n))
  | Negate x => set x (fun v => Some (negate v))
  | Increment x => set x (fun v => Some (add d v (one d))) | Decrement x => set x (fun v => Some (sub d v (one d)))
  | Invert x => set x (fun v => Some (inv d v)) | SquareRoot x => set x (fun v => Some (sqrt d v))
  | Precision x n => match a x with Some v => Some (v_put a x (Some (precision d v n))) | None => Some a end
  | Read x t => set x (fun v => lift_io (rd_string d v t))
  end.

Fixpoint v_run (d : Z) (a : values) (h : list command) : option values :=
  match h with
  | [] => Some a
  | c :: t => match v_step d a c with Some a' => v_run d a' t | None => None end
  end.
