(** The vocabulary of the circuit properties: what it means for a circuit
    program to be sound, complete and synthesizable. These three notions
    mention only runs ([exec]), constraints ([sat]) and witness values
    ([honest]); the lemmas relate them to the proof rules of Sem.v. *)

From Verif Require Export Sem.

Section Claims.
Context {p : positive}.
Notation F := (Num p).
Open Scope num_scope.

(** A circuit number whose variables are among [U], in canonical form. *)
Definition owned (U : list Index) (c : CNum p) : Prop :=
  canonical (clc c) /\ forall k v, In (k, v) (clc c) -> In k U.
(** The cached value is the value under [s]. *)
Definition valued (s : Index -> F) (c : CNum p) : Prop := cvalue c = Some (ceval s c).
(** No cached value, except that of a constant. *)
Definition blank (c : CNum p) : Prop := forall v, cvalue c = Some v -> as_const c = Some v.

(** Soundness: in every run of [m] and every assignment satisfying the
    constraints of the run, [P] holds of the result. *)
Definition sound_for {A} (U : list Index) (m : prog p A) (P : (Index -> F) -> A -> Prop) : Prop :=
  forall s tr a, s I0 = 1 -> exec U m tr (Some a) -> sat s tr -> P s a.

(** Completeness: from any assignment of the variables in use satisfying
    [Pre], no run of [m] panics, all allocations get values, these values
    extend the assignment to one that satisfies every constraint, and [P]
    holds of the result. *)
Definition complete_for {A} (U : list Index) (m : prog p A)
    (Pre : (Index -> F) -> Prop) (P : (Index -> F) -> A -> Prop) : Prop :=
  forall s0 tr o, s0 I0 = 1 -> Pre s0 -> exec U m tr o ->
    exists s a, (forall i, In i U -> s i = s0 i) /\ honest s tr /\ sat s tr /\ o = Some a /\ P s a.

(** Synthesis: no run of [m] panics, and [P k n] holds, [k] and [n] being the
    numbers of variables and constraints added. *)
Definition synth_for {A} (U : list Index) (m : prog p A) (P : nat -> nat -> A -> Prop) : Prop :=
  forall tr o, exec U m tr o -> exists a, o = Some a /\ P (nvars tr) (ncons tr) a.

Lemma owned_wf U n c : owned U c <-> wf (mkst U n) c.
Proof. reflexivity. Qed.

Lemma vars_length (tr : list (event p)) U : length (vars tr U) = (length U + nvars tr)%nat.
Proof.
  revert U. induction tr as [|[i v|i v|a b c] tr IH]; intros U; cbn [vars nvars]; [lia| | |];
    rewrite IH; cbn [length]; lia.
Qed.

Lemma wp_sound_for {A} U (m : prog p A) (P : (Index -> F) -> A -> Prop) :
  In I0 U ->
  (forall s, okS s (mkst U 0) -> wp Sound s (mkst U 0) m (fun _ a => P s a)) ->
  sound_for U m P.
Proof.
  intros H0 H s tr a H1 He Hs. apply (wp_sound m s U tr a (fun _ a => P s a) 0); auto.
  apply H. split; auto.
Qed.

Lemma wp_complete_for {A} U (m : prog p A) (Pre : (Index -> F) -> Prop) (P : (Index -> F) -> A -> Prop) :
  In I0 U ->
  (forall s s', (forall i, In i U -> s' i = s i) -> Pre s -> Pre s') ->
  (forall s, okS s (mkst U 0) -> Pre s -> wp Honest s (mkst U 0) m (fun _ a => P s a)) ->
  complete_for U m Pre P.
Proof.
  intros H0 Hext H s0 tr o H1 HPre He.
  assert (G : forall s, (forall i, In i U -> s i = s0 i) -> wp Honest s (mkst U 0) m (fun _ a => P s a)).
  { intros s Hs. apply H.
    - split; auto. cbn. rewrite Hs; auto.
    - eapply Hext; eauto. }
  clear H HPre H1 H0 Hext Pre. revert s0 G. generalize 0%nat as n.
  induction He as [U a|U|U v k i tr o Hi He IH|U v k i tr o Hi He IH|U a b c k tr o He IH]; intros n s0 G.
  - exists s0, a. repeat split; auto; try (intros ? ? ? []); try (intros ? ? [[]|[]]).
    apply (G s0); auto.
  - specialize (G s0 (fun _ _ => eq_refl)). cbn in G. discriminate.
  - destruct v as [v|].
    2:{ destruct (G s0 (fun _ _ => eq_refl)) as [Hv _]. exfalso. now apply Hv. }
    destruct (IH n (fun j => if ieqb j i then v else s0 j)) as [s [a [E1 [E2 [E3 [E4 E5]]]]]].
    { intros s Hs. destruct (G s) as [_ Hw].
      - intros j Hj. rewrite Hs by now right. destruct (ieqb j i) eqn:E; auto.
        apply ieqb_eq in E; subst; contradiction.
      - apply Hw; auto. intros _. rewrite Hs by now left. now rewrite ieqb_refl. }
    exists s, a. split; [|split; [|split; [|auto]]].
    + intros j Hj. rewrite E1 by now right. destruct (ieqb j i) eqn:E; auto.
      apply ieqb_eq in E; subst; contradiction.
    + intros j w [[E|Hin]|[E|Hin]]; try discriminate; auto.
      inversion E; subst. rewrite (E1 j) by now left. now rewrite ieqb_refl.
    + intros x y z [E|Hin]; [discriminate|auto].
  - destruct v as [v|].
    2:{ destruct (G s0 (fun _ _ => eq_refl)) as [Hv _]. exfalso. now apply Hv. }
    destruct (IH n (fun j => if ieqb j i then v else s0 j)) as [s [a [E1 [E2 [E3 [E4 E5]]]]]].
    { intros s Hs. destruct (G s) as [_ Hw].
      - intros j Hj. rewrite Hs by now right. destruct (ieqb j i) eqn:E; auto.
        apply ieqb_eq in E; subst; contradiction.
      - apply Hw; auto. intros _. rewrite Hs by now left. now rewrite ieqb_refl. }
    exists s, a. split; [|split; [|split; [|auto]]].
    + intros j Hj. rewrite E1 by now right. destruct (ieqb j i) eqn:E; auto.
      apply ieqb_eq in E; subst; contradiction.
    + intros j w [[E|Hin]|[E|Hin]]; try discriminate; auto.
      inversion E; subst. rewrite (E1 j) by now left. now rewrite ieqb_refl.
    + intros x y z [E|Hin]; [discriminate|auto].
  - destruct (IH (S n) s0) as [s [x [E1 [E2 [E3 [E4 E5]]]]]].
    { intros s Hs. destruct (G s Hs) as [Hh Hw]. apply Hw. auto. }
    exists s, x. split; [auto|]. split; [|split; [|auto]].
    + intros j w [[E|Hin]|[E|Hin]]; try discriminate; auto.
    + intros u v w [E|Hin]; [|auto]. inversion E; subst. apply (G s E1). reflexivity.
Qed.

(** In [Setup] mode the rules do not look at the assignment. *)
Lemma wp_synth_for {A} U (m : prog p A) (P : nat -> nat -> A -> Prop) :
  In I0 U ->
  (forall s, okS s (mkst U 0) ->
     wp Setup s (mkst U 0) m (fun S1 a =>
       forall k, length (su S1) = (length U + k)%nat -> P k (sn S1) a)) ->
  synth_for U m P.
Proof.
  intros H0 H tr o He.
  specialize (H (fun _ => 1)). eapply wp_setup in H; [|split; auto|exact He].
  destruct H as [a [E H]]. exists a. split; auto. cbn [su sn] in H.
  apply H. apply vars_length.
Qed.
End Claims.
