(** * Concrete programs with e_float objects. *)

From Coq Require Import ZArith List Bool Reals Lia Lra Arith String Ascii.
From Flocq Require Import Core BinarySingleNaN.
From Verif Require Import Model Spec Limbs Value CmpProofs AddProofs Decide ModelDiv DivProofs InvProofs ModelStr SpecText ModelPow
  IntProofs MixedProofs IntCor ModelObj SpecObj WfProofs.
Import ListNotations.
Open Scope R_scope.
Local Notation length := List.length.
Local Notation chars := list_ascii_of_string.

Lemma reuse_undefined d : valid_digits d ->
  let h := [New 0 (SSigned 5); New 1 (SMove 0); New 2 (SSigned 7); Assign 0 2]%nat in
  tracks true no_status (h ++ [AddTo 0 2])%nat <> None /\
  (exists s v, run d no_objects h = Defined s /\ s 0%nat = Some v /\ data v = [] /\ exp v = exp (of_sll d 7)) /\
  run d no_objects (h ++ [AddTo 0 2])%nat = Undefined.
Proof.
  intros Hd h. assert (L : data (of_sll d 7) <> []).
  { intro E. assert (W : wf d (of_sll d 7)) by (apply of_sll_spec; auto; lia). pose proof (Nn_len d _ Hd W) as L. rewrite E in L.
    pose proof (Nn_Z d Hd). pose proof (elem_number_bounds d Hd). cbn in L. lia. }
  split; [vm_compute; discriminate|]. subst h.
  assert (R : exists s, run d no_objects [New 0 (SSigned 5); New 1 (SMove 0); New 2 (SSigned 7); Assign 0 2]%nat = Defined s /\
    s 0%nat = Some (obj_assign (moved (of_sll d 5)) (of_sll d 7)) /\ s 2%nat = Some (of_sll d 7)).
  {
    cbn [run step construct live obind no_objects put Nat.eqb].
    eexists. split; [reflexivity|]. split; reflexivity. }
  assert (RA : forall h1 h2 s, run d s (h1 ++ h2) = match run d s h1 with Defined s1 => run d s1 h2 | Undefined => Undefined end).
  { induction h1; intros h2 s; [reflexivity|]. cbn [app run]. destruct (step d s a); auto. }
  destruct R as (s & R & S0 & S2). split.
  - exists s. eexists. split; [exact R|]. split; [exact S0|]. split; reflexivity.
  - rewrite RA, R. cbn [run step]. unfold compound, update, use. rewrite S0, S2. cbn [obind].
    unfold has_limbs at 1. destruct (data (of_sll d 7)) eqn:D; [contradiction|]. cbn [obind]. reflexivity.
Qed.

Definition after (d : Z) (s : store) (c : command) : store := match step d s c with Defined s' => s' | Undefined => s end.

Lemma each_cons d (P : store -> command -> Prop) s c t : P s c -> each d P (after d s c) t -> each d P s (c :: t).
Proof. intros H1 H2. cbn [each]. split; auto. intros s' E. unfold after in H2. rewrite E in H2. auto. Qed.

Lemma decimal_list l : forallb (fun c => (0 <=? c)%Z && (c <=? 9)%Z)%bool l = true -> Forall is_decimal l.
Proof. rewrite forallb_forall, Forall_forall. intros H x I. specialize (H x I). unfold is_decimal. lia. Qed.

Lemma literal_text_of l : valid_literal l -> (Z.of_nat (length (text l)) < 2147483600)%Z -> (Z.abs (l_exponent l) <= 9000000000000000000)%Z ->
  literal_text (text l).
Proof. intros. exists l. auto. Qed.

Lemma negative_zero : let h := [New 0 (SText (chars "-7e2147483616")); MulU 0 99999999; MulU 0 99999999; Invert 0]%nat in
  exists s v, each 30 command_ok no_objects h /\ run 30 no_objects h = Defined s /\ s 0%nat = Some v /\ iszero v = true /\ neg v = true /\
  ~ wf 30 v.
Proof.
  cbv zeta. set (h := [_; _; _; _]). assert (Q : exists s v, run 30 no_objects h = Defined s /\ s 0%nat = Some v /\
    (iszero v && neg v && (nth 0 (data v) 0 =? 0)%Z)%bool = true).
  { eexists. eexists. split; [vm_compute; reflexivity|]. split; [reflexivity|]. vm_compute; reflexivity. }
  destruct Q as (s & v & E & Ev & Q). apply andb_prop in Q. destruct Q as [Q Z1]. apply andb_prop in Q. destruct Q as [Z0 N0]. apply Z.eqb_eq in Z1.
  exists s, v. split; [|repeat (split; [now auto|])].
  - apply each_cons.
    + cbn [command_ok source_ok].
      apply (literal_text_of (mkliteral (Some true) [7%Z] false [] (Some (false, None, [2;1;4;7;4;8;3;6;1;6]%Z)))).
      * unfold valid_literal; cbn [l_int l_frac l_point l_exp app]. split; [apply decimal_list; reflexivity|]. split; [constructor|]. split; [discriminate|]. split; [auto|].
        intros u s0 ds E0. injection E0 as <- <- <-. split; [apply decimal_list; reflexivity|discriminate].
      * vm_compute; reflexivity.
      * vm_compute; discriminate.
    + apply each_cons; [unfold command_ok, uint64; lia|]. apply each_cons; [unfold command_ok, uint64; lia|]. apply each_cons; exact I.
  - intro W. destruct (wf_zero _ _ W) as [_ Q]; auto. { apply iszero_cls; auto. } congruence.
Qed.

Lemma nan_digits : let h := [New 0 (SClass NaN); Read 0 (chars "1")]%nat in
  exists s v, run 30 no_objects h = Defined s /\ s 0%nat = Some v /\ cls v = NaN /\ ~ wf 30 v.
Proof.
  cbv zeta. eexists. eexists. split; [vm_compute; reflexivity|]. split; [reflexivity|]. split; [reflexivity|].
  intro W. destruct (wf_nonfin _ _ W) as [Q _]; [discriminate|]. cbn in Q. inversion Q. discriminate.
Qed.

Definition sample : list command :=
  [New 0 (SSigned (-7)); New 1 (SText (chars "1.25e3")); New 2 SDefault; AddTo 0 1; DivBy 1 0; Let 2 (ESqrt 1);
   New 3 (SMove 2); Let 2 (EFmod 0 3); Swap 0 2; SubFrom 3 3; Invert 1; Destroy 3]%nat.

Lemma sample_ok :
  each 30 (fun s c => command_ok s c /\ invert_ok s c) no_objects sample /\
  exists st s, tracks false no_status sample = Some st /\ run 30 no_objects sample = Defined s /\
  (exists v, s 1%nat = Some v /\ cls v = Finite /\ iszero v = false) /\ st 3%nat = None.
Proof.
  split.
  - unfold sample. apply each_cons; [split; [unfold command_ok, source_ok, int64; lia|exact I]|].
    apply each_cons.
    { split; [|exact I]. cbn [command_ok source_ok].
      apply (literal_text_of (mkliteral None [1%Z] true [2;5]%Z (Some (false, None, [3]%Z)))).
      * unfold valid_literal; cbn [l_int l_frac l_point l_exp app]. split; [apply decimal_list; reflexivity|]. split; [apply decimal_list; reflexivity|]. split; [discriminate|]. split; [discriminate|].
        intros u s0 ds E0. injection E0 as <- <- <-. split; [apply decimal_list; reflexivity|discriminate].
      * vm_compute; reflexivity.
      * vm_compute; discriminate. }
    do 8 (apply each_cons; [split; exact I|]).
    apply each_cons; [split; [exact I|]|].
    { cbn [invert_ok]. intros v E C. vm_compute in E. injection E as <-. right.
      apply (in_range_of_exp 30); [apply valid_30|apply wfb_finite; vm_compute; reflexivity|vm_compute; discriminate|vm_compute; split; discriminate]. }
    apply each_cons; [split; exact I|]. exact I.
  - eexists. eexists. split; [reflexivity|]. split; [vm_compute; reflexivity|]. split; [|reflexivity].
    eexists. split; [reflexivity|]. split; reflexivity.
Qed.
