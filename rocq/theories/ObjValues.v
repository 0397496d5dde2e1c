(** * Programs over objects behave like programs over values *)

From Coq Require Import ZArith List Bool Arith Lia Reals.
From Verif Require Import Model Spec ModelDiv ModelStr SpecText ModelPow ModelObj SpecObj WfProofs SpecProg.
Import ListNotations.

(** the values that the objects of a store have *)
Definition holds (st : status) (s : store) (a : values) : Prop := forall x, a x = if has_value st x then s x else None.

Lemma holds_put st s a x b v w : holds st s a -> w = (match b with Some true => v | _ => None end) -> holds (s_put st x b) (put s x v) (v_put a x w).
Proof.
  intros H -> y. unfold v_put, put, s_put, has_value in *. specialize (H y).
  destruct (Nat.eq_dec y x); destruct (Nat.eqb_spec y x); try congruence; try exact H. destruct b as [[|]|]; reflexivity.
Qed.

Lemma holds_keep st s a x v : holds st s a -> has_value st x = true -> holds st (put s x (Some v)) (v_put a x (Some v)).
Proof.
  intros H E y. unfold v_put, put, has_value in *. specialize (H y).
  destruct (Nat.eq_dec y x); destruct (Nat.eqb_spec y x); try congruence; try exact H. subst. rewrite E. reflexivity.
Qed.

Section Values.
Variable d : Z.
Hypothesis Hd : valid_digits d.
Variables (P : ef -> Prop).
Hypothesis Psame : forall v w, P v -> P w -> obj_assign v w = w.

Lemma get st s a x : agrees P st s -> holds st s a -> has_value st x = true ->
  exists v, s x = Some v /\ use s x = Defined v /\ a x = Some v /\ P v.
Proof.
  intros A H E. pose proof (H x) as Hx. rewrite E in Hx. specialize (A x). unfold has_value in E. destruct (st x) as [[|]|]; try discriminate.
  destruct A as (v & Es & D & Q). exists v. unfold use, has_limbs. rewrite Es in *. destruct (data v); [contradiction|auto].
Qed.

Lemma get_live st s x : agrees P st s -> exists_ st x = true -> exists v, live s x = Defined v /\ s x = Some v.
Proof.
  intros A H. specialize (A x). unfold exists_ in H. unfold live. destruct (st x) as [[|]|]; try discriminate;
    destruct A as (v & E & _); exists v; rewrite E; auto.
Qed.

Lemma v_update st s a x f g s' : agrees P st s -> holds st s a -> has_value st x = true -> (forall v, lift (f v) = g v) ->
  update s x f = Defined s' ->
  exists a', match a x with Some v => match g v with Some r => Some (v_put a x (Some r)) | None => None end | None => None end = Some a' /\ holds st s' a'.
Proof.
  intros A H E G U. destruct (get st s a x A H E) as (v & Es & Eu & Ea & _). unfold update in U. rewrite Eu in U. cbn [obind] in U. rewrite Ea.
  rewrite <- (G v). destruct (f v) as [r|]; cbn [obind] in U; [|discriminate]. injection U as <-. cbn [lift]. eexists; split; [reflexivity|]. apply holds_keep; assumption.
Qed.

Lemma v_compound st s a x y f g s' : agrees P st s -> holds st s a -> has_value st x = true -> has_value st y = true ->
  compound s x y f g = Defined s' ->
  exists a', match a x, a y with Some v, Some w => Some (v_put a x (Some (if Nat.eq_dec x y then g v else f v w))) | _, _ => None end = Some a' /\ holds st s' a'.
Proof.
  intros A H E E' U. destruct (get st s a x A H E) as (v & Es & Eu & Ea & _). destruct (get st s a y A H E') as (w & Es' & Eu' & Ea' & _).
  unfold compound, update in U. rewrite Eu', Eu in U. cbn [obind] in U. injection U as <-. rewrite Ea, Ea'. eexists; split; [reflexivity|].
  destruct (Nat.eq_dec x y); destruct (Nat.eqb_spec x y); try congruence; apply holds_keep; assumption.
Qed.

Lemma v_eval_ok st s a e r : agrees P st s -> holds st s a -> forallb (has_value st) (operands e) = true ->
  eval d s e = Defined r -> v_eval d a e = Some r.
Proof.
  intros A H F E. destruct e; cbn [operands forallb] in F; repeat (apply andb_prop in F; destruct F as [? F]); cbn [eval v_eval] in *;
  repeat match goal with
  | Hy : has_value st ?y = true |- _ => destruct (get st s a y A H Hy) as (? & _ & ?Eu & ?Ea & _); clear Hy
  end;
  repeat (match goal with Eu : use s ?y = Defined _ |- _ => rewrite Eu in E end; cbn [obind] in E);
  repeat match goal with Ea : a ?y = Some _ |- _ => rewrite Ea
  end; try (injection E as <-; reflexivity); rewrite E; reflexivity.
Qed.

Ltac guards := repeat match goal with
  | H : (if ?b then Some _ else None) = Some _ |- _ => destruct b eqn:?; [injection H as <-|discriminate]
  | H : (_ && _)%bool = true |- _ => apply andb_prop in H; destruct H
  end.

Lemma holds_none st s a x : holds st s a -> (match st x with Some true => s x | _ => None end) = a x.
Proof. intro H. rewrite (H x). unfold has_value. destruct (st x) as [[|]|]; reflexivity. Qed.

Lemma v_step_ok st s a c st' s' : agrees P st s -> holds st s a -> track false st c = Some st' -> step d s c = Defined s' ->
  exists a', v_step d a c = Some a' /\ holds st' s' a'.
Proof.
  intros A H T S. destruct c as [x src|x|x y|x y|x y|x e|x y|x y|x y|x y|x n|x n|x n|x n|x n|x n|x n|x n|x|x|x|x|x|x n|x t];
    cbn [track step] in *; guards.
  - destruct (s x) as [?|] eqn:Ex; [discriminate|]. destruct src; guards; cbn [construct v_step v_const] in *.
    + injection S as <-. eexists; split; [reflexivity|]. apply holds_put; auto.
    + injection S as <-. eexists; split; [reflexivity|]. apply holds_put; auto.
    + injection S as <-. eexists; split; [reflexivity|]. apply holds_put; auto.
    + destruct (ctor_double d m e) as [r|]; cbn [obind lift] in *; [|discriminate]. injection S as <-. eexists; split; [reflexivity|]. apply holds_put; auto.
    + destruct (of_string d s0) as [r| |]; cbn [obind io_outcome lift_io] in *; try discriminate. injection S as <-. eexists; split; [reflexivity|]. apply holds_put; auto.
    + injection S as <-. eexists; split; [reflexivity|]. apply holds_put; auto.
    + destruct (get_live st s y A) as (v & El & Ev); auto. rewrite El in S. cbn [obind] in S. injection S as <-. eexists; split; [reflexivity|].
      apply holds_put; auto. unfold obj_copy. rewrite <- Ev. symmetry. apply holds_none. exact H.
    + destruct (get_live st s y A) as (v & El & Ev); auto. rewrite El in S. cbn [obind] in S. injection S as <-. eexists; split; [reflexivity|].
      apply holds_put; auto. apply holds_put; auto. rewrite <- Ev. symmetry. apply holds_none. exact H.
  - destruct (get_live st s x A) as (v & El & Ev); auto. rewrite El in S. cbn [obind] in S. injection S as <-. eexists; split; [reflexivity|]. apply holds_put; auto.
  - cbn [orb] in *. destruct (get st s a x A H) as (v & Ev & _ & Ea & Pv); auto. destruct (get st s a y A H) as (w & Ew & _ & Eb & Pw); auto.
    unfold live in S. rewrite Ev, Ew in S. cbn [obind] in S. injection S as <-. eexists; split; [reflexivity|]. rewrite Eb.
    destruct (Nat.eqb_spec x y) as [->|N].
    + intro z. unfold s_put, v_put, has_value. destruct (Nat.eq_dec z y) as [->|]; [congruence|apply H].
    + rewrite Psame by assumption. apply holds_put; auto.
  - destruct (get_live st s x A) as (v & El & Ev); auto. destruct (get_live st s y A) as (w & El' & Ew); auto. rewrite El, El' in S. cbn [obind] in S. injection S as <-.
    eexists; split; [reflexivity|]. apply holds_put; auto. apply holds_put; auto. rewrite <- Ew. symmetry. apply holds_none. exact H.
  - destruct (get st s a x A H) as (v & Ev & _ & Ea & Pv); auto. destruct (get st s a y A H) as (w & Ew & _ & Eb & Pw); auto.
    unfold live in S. rewrite Ev, Ew in S. cbn [obind] in S. eexists; split; [reflexivity|]. rewrite Ea, Eb.
    destruct (Nat.eqb_spec x y) as [->|N]; injection S as <-.
    + intro z. unfold v_put. destruct (Nat.eq_dec z y) as [->|]; [rewrite <- Ea; apply H|apply H].
    + unfold obj_copy. rewrite !Psame by assumption. apply holds_keep; auto. apply holds_keep; auto.
  - destruct (get_live st s x A) as (v & El & Ev); auto. rewrite El in S. cbn [obind] in S. destruct (eval d s e) as [r|] eqn:Ee; [|discriminate]. cbn [obind] in S. injection S as <-.
    cbn [v_step]. rewrite (v_eval_ok st s a e r) by assumption. eexists; split; [reflexivity|]. apply holds_put; auto.
  - eapply v_compound; eauto.
  - eapply v_compound; eauto.
  - eapply v_compound; eauto.
  - eapply v_compound; eauto.
  - eapply v_update; eauto; intro; reflexivity.
  - eapply v_update; eauto; intro; reflexivity.
  - eapply v_update; eauto; intro; reflexivity.
  - eapply v_update; eauto; intro; reflexivity.
  - eapply v_update; eauto; intro; reflexivity.
  - eapply v_update; eauto; intro; reflexivity.
  - eapply v_update; eauto; intro; reflexivity.
  - eapply v_update; eauto; intro; reflexivity.
  - eapply v_update; eauto; intro; reflexivity.
  - eapply v_update; eauto; intro; reflexivity.
  - eapply v_update; eauto; intro; reflexivity.
  - eapply v_update; eauto; intro; reflexivity.
  - eapply v_update; eauto; intro; reflexivity.
  - destruct (get_live st s x A) as (v & El & Ev); auto. rewrite El in S. cbn [obind] in S. injection S as <-. cbn [v_step].
    pose proof (H x) as Hx. destruct (has_value st x) eqn:Eh.
    + rewrite Hx, Ev. eexists; split; [reflexivity|]. apply holds_keep; auto.
    + rewrite Hx. eexists; split; [reflexivity|]. intro z. unfold put. destruct (Nat.eqb_spec z x) as [->|]; [rewrite Eh; exact Hx|apply H].
  - apply (v_update st s a x (fun v => io_outcome (rd_string d v t)) (fun v => lift_io (rd_string d v t)) s' A H); auto. intro v. cbv beta. destruct (rd_string d v t); reflexivity.
Qed.
End Values.

Lemma values_none : holds no_status no_objects (fun _ => None).
Proof. intro x. reflexivity. Qed.

Lemma values_run d h st : valid_digits d -> each d command_ok no_objects h -> tracks false no_status h = Some st ->
  exists s a, run d no_objects h = Defined s /\ v_run d (fun _ => None) h = Some a /\ forall x, a x = if has_value st x then s x else None.
Proof.
  intros Hd. set (P := wfz d).
  assert (G : forall h s0 st0 a0, agrees P st0 s0 -> holds st0 s0 a0 -> each d command_ok s0 h -> tracks false st0 h = Some st ->
    exists s a, run d s0 h = Defined s /\ v_run d a0 h = Some a /\ holds st s a).
  { clear h. induction h as [|c t IH]; intros s0 st0 a0 A H O T.
    - cbn in T. injection T as <-. exists s0, a0. repeat split; auto.
    - cbn [tracks] in T. destruct (track false st0 c) as [st1|] eqn:Et; [|discriminate]. destruct O as [Oc On].
      destruct (P_step d P Hd (wf_wfz d) (fun x H => H) (negate_wfz d) (fun x y => add_wfz d x y Hd) (fun x => integer_part_wfz d x Hd)
        (fun x p => precision_wfz d x p Hd) (set_prec_wfz d) st0 s0 c st1 A Oc) as (s1 & Es & A1); auto.
      { intros. apply inv_wfz; auto. }
      destruct (v_step_ok d P (obj_assign_same d P Hd (wf_wfz d) (fun x H => H) (negate_wfz d) (fun x y => add_wfz d x y Hd) (fun x => integer_part_wfz d x Hd) (fun x p => precision_wfz d x p Hd) (set_prec_wfz d)) st0 s0 a0 c st1 s1 A H Et Es) as (a1 & Ea & H1).
      cbn [run v_run]. rewrite Es, Ea. apply (IH s1 st1 a1); auto. }
  intros O T. destruct (G h no_objects no_status (fun _ => None)) as (s & a & E1 & E2 & H); auto using agrees_none, values_none.
  exists s, a. repeat split; auto.
Qed.
