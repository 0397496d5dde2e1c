(** * Properties C23, C35: the representation invariant over all programs;
      copies, moves and memory. *)

From Coq Require Import ZArith List Bool Arith Lia Reals String Ascii.
From Flocq Require Import BinarySingleNaN.
From Verif Require Import Model Spec Decide ModelDiv ModelStr SpecText ModelPow ModelObj SpecObj ObjProofs WfProofs ObjExamples SpecProg ObjValues.
Import ListNotations.
Open Scope nat_scope.
Local Notation chars := list_ascii_of_string.

(** ** C23 *)

(** C23: take any program of constructions, destructions, copies, moves, swaps,
    assignments, arithmetic, roots, powers and reading of decimal literals, in
    any order and of any length, that keeps to the lifetime of the objects and
    does not use the value of a moved-from object.  It runs without undefined
    behaviour, and every object that has a value at the end satisfies the
    representation invariant, except perhaps for the sign of zero.  Missing from
    C23: negative zero, see the next theorem; mantissas of 10 and more,
    malformed texts and the most negative integer are excluded by
    [command_ok]. *)
Theorem C23_invariant_partial :
  forall d h st, valid_digits d -> each d command_ok no_objects h -> tracks false no_status h = Some st ->
  exists s, run d no_objects h = Defined s /\ agrees (wf_but_sign d) st s.
Proof. exact invariant_run. Qed.
Print Assumptions C23_invariant_partial.

(** C23: without negative zero, if reciprocals are taken only of zero,
    infinities, NaN and numbers that keep some distance from the ends of the
    exponent range. *)
Theorem C23_canonical_partial :
  forall d h st, valid_digits d -> (d <= 65000)%Z ->
  each d (fun s c => command_ok s c /\ invert_ok s c) no_objects h -> tracks false no_status h = Some st ->
  exists s, run d no_objects h = Defined s /\ agrees (wf d) st s.
Proof. exact canonical_run. Qed.
Print Assumptions C23_canonical_partial.

Example C23_hypotheses_met :
  let h := [New 0 (SSigned (-7)); New 1 (SText (chars "1.25e3")); New 2 SDefault; AddTo 0 1; DivBy 1 0; Let 2 (ESqrt 1);
            New 3 (SMove 2); Let 2 (EFmod 0 3); Swap 0 2; SubFrom 3 3; Invert 1; Destroy 3] in
  each 30 (fun s c => command_ok s c /\ invert_ok s c) no_objects h /\
  exists st s, tracks false no_status h = Some st /\ run 30 no_objects h = Defined s /\
  (exists v, s 1 = Some v /\ cls v = Finite /\ iszero v = false) /\ st 3 = None.
Proof. exact sample_ok. Qed.

(** C23: a negative zero can be computed: -7e2147483616 is multiplied twice by
    99999999 and inverted. *)
Theorem C23_negative_zero_refuted :
  let h := [New 0 (SText (chars "-7e2147483616")); MulU 0 99999999; MulU 0 99999999; Invert 0] in
  exists s v, each 30 command_ok no_objects h /\ run 30 no_objects h = Defined s /\ s 0 = Some v /\ iszero v = true /\ neg v = true /\
  ~ wf 30 v.
Proof. exact negative_zero. Qed.
Print Assumptions C23_negative_zero_refuted.

(** C23: reading "1" into a NaN leaves a NaN with digits (a literal, but
    [command_ok] does not hold because the target is a NaN). *)
Theorem C23_nan_digits_refuted :
  let h := [New 0 (SClass NaN); Read 0 (chars "1")] in
  exists s v, run 30 no_objects h = Defined s /\ s 0 = Some v /\ cls v = NaN /\ ~ wf 30 v.
Proof. exact nan_digits. Qed.
Print Assumptions C23_nan_digits_refuted.

(** ** C35 *)

(** C35: all sequences of constructions, copies, moves, assignments, swaps,
    element writes and destructions of the array class behave like
    independent lists: there is no use of memory that was given back or never
    allocated, no sharing, no block is given back twice, and when the last
    array is gone no block is left. *)
Theorem C35_array_memory :
  forall h s, l_run (fun _ => None) h = Some s ->
  exists m, array_run no_memory h = Defined m /\ (forall x, contents m x = s x) /\ memory_sound m /\
    ((forall x, s x = None) -> forall p, blocks m p = None).
Proof. exact array_memory. Qed.
Print Assumptions C35_array_memory.

Example C35_array_hypotheses_met :
  exists s, l_run (fun _ => None) [AInit 0 [1; 2; 3]%Z; ACopy 1 0; AMove 2 0; AWrite 1 1 9%Z; AMoveAssign 0 2; ASwap 0 1; AAssign 1 0; ADestroy 2] = Some s /\
  s 0 = Some [1; 9; 3]%Z /\ s 1 = Some [1; 9; 3]%Z /\ s 2 = None.
Proof. eexists. split; [reflexivity|]. repeat split. Qed.

(** C35: in every state that a program can reach (any history of the
    statements of C23, including moves), an object whose value was moved away can
    be destroyed; it can be the target of a move assignment and then has the
    value of the source; it can be assigned the result of any operation and then
    has this result.  No other object changes.  By C23 it can be used normally
    afterwards.  Missing from C35: copy assignment from another object. *)
Theorem C35_reuse_partial :
  forall d h st s x, valid_digits d -> each d command_ok no_objects h -> tracks false no_status h = Some st ->
  run d no_objects h = Defined s -> st x = Some false ->
  (exists s', step d s (Destroy x) = Defined s' /\ s' x = None /\ (forall z, z <> x -> s' z = s z)) /\
  (forall y, has_value st y = true -> exists s' w, step d s (MoveAssign x y) = Defined s' /\ s y = Some w /\ wf_but_sign d w /\ s' x = Some w /\
     (forall z, z <> x -> z <> y -> s' z = s z)) /\
  (forall e, expression_ok e -> forallb (has_value st) (operands e) = true ->
     exists s' r, eval d s e = Defined r /\ step d s (Let x e) = Defined s' /\ wf_but_sign d r /\ s' x = Some r /\
     (forall z, z <> x -> s' z = s z)).
Proof. exact reuse. Qed.
Print Assumptions C35_reuse_partial.

Example C35_hypotheses_met :
  let h := [New 0 (SSigned 5); New 1 (SMove 0); New 2 (SCopy 1); AddTo 2 1] in
  each 30 command_ok no_objects h /\
  exists st s, tracks false no_status h = Some st /\ run 30 no_objects h = Defined s /\ st 0 = Some false /\ has_value st 2 = true /\
  exists s', step 30 s (Let 0 (EPlus 1 2)) = Defined s' /\ s' 0 = Some (of_sll 30 15).
Proof.
  cbv zeta. split.
  - apply each_cons; [cbn; unfold int64; lia|]. do 3 (apply each_cons; [exact I|]). exact I.
  - eexists. eexists. split; [reflexivity|]. split; [reflexivity|]. split; [reflexivity|]. split; [reflexivity|].
    eexists. split; [reflexivity|]. vm_compute. reflexivity.
Qed.

(** C35: with copy assignment allowed the statement is false.  After
    [b = std::move(a); a = c;] the object [a] has no digits, for every number of
    digits, and using it is undefined. *)
Theorem C35_reuse_refuted :
  forall d, valid_digits d ->
  let h := [New 0 (SSigned 5); New 1 (SMove 0); New 2 (SSigned 7); Assign 0 2] in
  tracks true no_status (h ++ [AddTo 0 2]) <> None /\
  (exists s v, run d no_objects h = Defined s /\ s 0 = Some v /\ data v = [] /\ exp v = exp (of_sll d 7)) /\
  run d no_objects (h ++ [AddTo 0 2]) = Undefined.
Proof. exact reuse_undefined. Qed.
Print Assumptions C35_reuse_refuted.

(** ** C67 *)

(** C67: a program as in C23 gives the variables the values that the statements
    say, as if every variable were a plain number of its own: whatever was copied,
    moved, swapped or assigned before, no statement changes a variable it does not
    name. *)
Theorem C67_value_semantics_partial :
  forall d h st, valid_digits d -> each d command_ok no_objects h -> tracks false no_status h = Some st ->
  exists s a, run d no_objects h = Defined s /\ v_run d (fun _ => None) h = Some a /\
  forall x, a x = if has_value st x then s x else None.
Proof. exact values_run. Qed.
Print Assumptions C67_value_semantics_partial.

Example C67_hypotheses_met :
  let h := [New 0 (SSigned (-7)); New 1 (SSigned 12); Swap 0 1; New 2 (SCopy 1); SubFrom 0 1; MulBy 2 2; New 3 (SMove 0); MoveAssign 0 2; AddTo 3 3] in
  each 30 command_ok no_objects h /\ exists st a, tracks false no_status h = Some st /\ v_run 30 (fun _ => None) h = Some a /\
  a 0 = Some (of_sll 30 49) /\ a 1 = Some (of_sll 30 (-7)) /\ a 2 = None /\ a 3 = Some (of_sll 30 38).
Proof.
  cbv zeta. split.
  - do 2 (apply each_cons; [cbn; unfold int64; lia|]). do 7 (apply each_cons; [exact I|]). exact I.
  - eexists. eexists. split; [reflexivity|]. split; [reflexivity|]. repeat split; vm_compute; reflexivity.
Qed.
