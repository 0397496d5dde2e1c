(** * Specification: arrays as plain lists, and which programs are meaningful.

    Independent of the memory model and of the arithmetic. *)

From Coq Require Import ZArith List Bool Arith Reals.
From Flocq Require Import BinarySingleNaN.
From Verif Require Import Model Spec SpecText ModelDiv ModelStr ModelObj.
Import ListNotations.

(** ** Arrays

    Each name has a list of its own, or no array.  [l_put] changes one name. *)
Definition lists := nat -> option (list Z).
Definition l_put (s : lists) (x : nat) (v : option (list Z)) : lists :=
  fun i => if Nat.eq_dec i x then v else s i.

(** What a statement means for the lists.  [None]: not a meaningful statement
    (it creates something that exists, uses something that does not exist, or
    has an index out of range). *)
Definition l_step (s : lists) (c : array_command) : option lists :=
  match c with
  | AInit x l => match s x with None => Some (l_put s x (Some l)) | _ => None end
  | ACopy x y => match s x, s y with None, Some l => Some (l_put s x (Some l)) | _, _ => None end
  | AMove x y =>
      match s x, s y with None, Some l => Some (l_put (l_put s x (Some l)) y (Some [])) | _, _ => None end
  | ADestroy x => match s x with Some _ => Some (l_put s x None) | None => None end
  | AAssign x y =>
      match s x, s y with
      | Some k, Some l =>
          (* as many elements as fit; everything, if the lengths agree *)
          if Nat.eq_dec (length k) (length l) then Some (l_put s x (Some l))
          else Some (l_put s x (Some (firstn (length k) l ++ skipn (length l) k)))
      | _, _ => None
      end
  | AMoveAssign x y =>
      match s x, s y with Some _, Some l => Some (l_put (l_put s x (Some l)) y (Some [])) | _, _ => None end
  | AWrite x i v =>
      match s x with
      | Some l => if lt_dec i (length l) then Some (l_put s x (Some (firstn i l ++ v :: skipn (S i) l))) else None
      | None => None
      end
  | ASwap x y =>
      match s x, s y with Some k, Some l => Some (l_put (l_put s x (Some l)) y (Some k)) | _, _ => None end
  end.

Fixpoint l_run (s : lists) (h : list array_command) : option lists :=
  match h with
  | [] => Some s
  | c :: t => match l_step s c with Some s' => l_run s' t | None => None end
  end.

(** The elements of an array in memory. *)
Definition contents (m : memory) (x : nat) : option (list Z) :=
  match arrays m x with
  | None => None
  | Some a => match elems a with None => Some [] | Some p => blocks m p end
  end.

(** Every allocated block belongs to exactly one array, and every array that
    is not empty owns an allocated block of its own size. *)
Definition memory_sound (m : memory) : Prop :=
  (forall p l, blocks m p = Some l ->
     exists x, (exists a, arrays m x = Some a /\ elems a = Some p) /\
               forall y b, arrays m y = Some b -> elems b = Some p -> y = x) /\
  (forall x a, arrays m x = Some a ->
     match elems a with
     | None => elem_count a = 0%nat
     | Some p => exists l, blocks m p = Some l /\ length l = elem_count a
     end).

(** ** Programs with e_float objects *)

(** Well-formed except that a zero may carry a sign. *)
Definition wf_but_sign (d : Z) (x : ef) : Prop :=
  wf d x \/
  (cls x = Finite /\ Forall (fun a => a = 0%Z) (data x) /\ wf d (mkef (data x) (exp x) false (cls x) (prec x))).

Definition int64 (n : Z) : Prop := (-9223372036854775808 < n < 9223372036854775808)%Z.
Definition uint64 (n : Z) : Prop := (0 <= n < 18446744073709551616)%Z.
Definition int32 (n : Z) : Prop := (-2147483648 <= n <= 2147483647)%Z.

(** The text of a decimal literal of acceptable size. *)
Definition literal_text (s : str) : Prop :=
  exists l, valid_literal l /\ s = text l /\ (Z.of_nat (length s) < 2147483600)%Z /\
  (Z.abs (l_exponent l) <= 9000000000000000000)%Z.

(** Arguments of constructors: the mantissa of e_float(mantissa, exponent) is
    below 10; texts are decimal literals. *)
Definition source_ok (src : source) : Prop :=
  match src with
  | SUnsigned n => uint64 n
  | SSigned n => int64 n
  | SParts m e => is_finite m = true /\ (Rabs (B2R m) < 10)%R
  | SText t => literal_text t
  | SDefault | SClass _ | SCopy _ | SMove _ => True
  end.

Definition expression_ok (e : expression) : Prop :=
  match e with
  | EPow _ n | EPow2 n => int64 n
  | ELdexp _ n => int32 n
  | _ => True
  end.

(** Arguments of statements: built-in integers are in range (and not the most
    negative one); texts are decimal literals and are not read into infinities
    and NaN. *)
Definition command_ok (s : store) (c : command) : Prop :=
  match c with
  | New _ src => source_ok src
  | Let _ e => expression_ok e
  | AddU _ n | SubU _ n | MulU _ n | DivU _ n => uint64 n
  | AddS _ n | SubS _ n | MulS _ n | DivS _ n => int64 n
  | Precision _ n => int32 n
  | Read x t => literal_text t /\ forall v, s x = Some v -> cls v = Finite
  | _ => True
  end.

(** Reciprocals are taken only of numbers whose magnitude keeps 26 decades
    distance from the ends of the exponent range (or of zero, infinities and
    NaN). *)
Definition invert_ok (s : store) (c : command) : Prop :=
  match c with
  | Invert x => forall v, s x = Some v -> cls v = Finite -> value v = 0%R \/ in_range (value v)
  | _ => True
  end.

(** [P] holds of every statement of the program [h], in the state in which it is
    executed. *)
Fixpoint each (d : Z) (P : store -> command -> Prop) (s : store) (h : list command) : Prop :=
  match h with
  | [] => True
  | c :: t => P s c /\ forall s', step d s c = Defined s' -> each d P s' t
  end.

(** ** Lifetime of objects

    [None]: there is no object of this name; [Some true]: it has a value;
    [Some false]: its value was moved away. *)
Definition status := nat -> option bool.

Definition s_put (st : status) (x : nat) (v : option bool) : status :=
  fun i => if Nat.eq_dec i x then v else st i.

Definition has_value (st : status) (x : nat) : bool := match st x with Some true => true | _ => false end.
Definition exists_ (st : status) (x : nat) : bool := match st x with Some _ => true | None => false end.

Definition operands (e : expression) : list nat :=
  match e with
  | EPlus y z | EMinus y z | ETimes y z | EOver y z | EFmod y z => [y; z]
  | EFabs y | EFloor y | ECeil y | EIntegerPart y | EDecimalPart y | ESqrt y | EPow y _ | ELdexp y _ => [y]
  | EPow2 _ => []
  end.

(** Programs that create every object once, do not use objects outside their
    lifetime and use the value of no object after it was moved away.
    [reassign] tells whether such an object may be the target of a copy
    assignment. *)
Definition track (reassign : bool) (st : status) (c : command) : option status :=
  let guard (b : bool) (st' : status) := if b then Some st' else None in
  match c with
  | New x (SCopy y) => guard (negb (exists_ st x) && exists_ st y) (s_put st x (st y))
  | New x (SMove y) => guard (negb (exists_ st x) && exists_ st y) (s_put (s_put st x (st y)) y (Some false))
  | New x _ => guard (negb (exists_ st x)) (s_put st x (Some true))
  | Destroy x => guard (exists_ st x) (s_put st x None)
  | Assign x y =>
      guard (exists_ st x && has_value st y && (reassign || has_value st x)) (s_put st x (Some true))
  | MoveAssign x y => guard (exists_ st x && exists_ st y) (s_put (s_put st x (st y)) y (Some false))
  | Swap x y => guard (has_value st x && has_value st y) st
  | Let x e => guard (exists_ st x && forallb (has_value st) (operands e)) (s_put st x (Some true))
  | AddTo x y | SubFrom x y | MulBy x y | DivBy x y => guard (has_value st x && has_value st y) st
  | AddU x _ | SubU x _ | MulU x _ | DivU x _ | AddS x _ | SubS x _ | MulS x _ | DivS x _
  | Negate x | Increment x | Decrement x | Invert x | SquareRoot x | Read x _ => guard (has_value st x) st
  | Precision x _ => guard (exists_ st x) st
  end.

Fixpoint tracks (reassign : bool) (st : status) (h : list command) : option status :=
  match h with
  | [] => Some st
  | c :: t => match track reassign st c with Some st' => tracks reassign st' t | None => None end
  end.

Definition no_status : status := fun _ => None.

(** The store agrees with the status: exactly the objects that have a value
    satisfy [P] and have limbs, exactly the others that exist have none. *)
Definition agrees (P : ef -> Prop) (st : status) (s : store) : Prop :=
  forall x, match st x with
            | None => s x = None
            | Some true => exists v, s x = Some v /\ data v <> [] /\ P v
            | Some false => exists v, s x = Some v /\ data v = []
            end.
