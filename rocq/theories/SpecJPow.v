(** * Specification for histories of calls *)

From Coq Require Import List.
Import ListNotations.

(** The values of a list of results, if all of them are there. *)
Fixpoint all_some {A : Type} (l : list (option A)) : option (list A) :=
  match l with
  | [] => Some []
  | Some a :: r => match all_some r with Some v => Some (a :: v) | None => None end
  | None :: _ => None
  end.

