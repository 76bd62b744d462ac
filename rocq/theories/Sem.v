(** Execution of circuit programs and the proof rules used for gadgets. *)

From Verif Require Export LCTheory.

(** What a back end sees. *)
Inductive event (p : positive) :=
| EAlloc (i : Index) (v : option (Num p))
| EInput (i : Index) (v : option (Num p))
| EEnf (a b c : CNum p).
Arguments EAlloc {p} i v.
Arguments EInput {p} i v.
Arguments EEnf {p} a b c.

Section Sem.
Context {p : positive}.
Notation F := (Num p).
Open Scope num_scope.

(** [exec U m tr o]: a back end in which the variables [U] are in use may run
    [m] with the calls [tr]; the outcome is [Some a], or [None] for a panic.
    Any unused index may be returned by an allocation. *)
Inductive exec {A} : list Index -> prog p A -> list (event p) -> option A -> Prop :=
| ex_ret U a : exec U (Ret a) [] (Some a)
| ex_panic U : exec U PPanic [] None
| ex_alloc U v k i tr o : ~ In i U -> exec (i :: U) (k i) tr o -> exec U (Alloc v k) (EAlloc i v :: tr) o
| ex_input U v k i tr o : ~ In i U -> exec (i :: U) (k i) tr o -> exec U (AllocInput v k) (EInput i v :: tr) o
| ex_enf U a b c k tr o : exec U k tr o -> exec U (Enforce a b c k) (EEnf a b c :: tr) o.

(** The assignment [s] satisfies the rank-1 constraint a*b = c. *)
Definition holds (s : Index -> F) (a b c : CNum p) : Prop := ceval s a * ceval s b = ceval s c.
(** [s] satisfies every constraint of a run. *)
Definition sat (s : Index -> F) (tr : list (event p)) : Prop :=
  forall a b c, In (EEnf a b c) tr -> holds s a b c.
(** [s] is the assignment handed to the back end. *)
Definition honest (s : Index -> F) (tr : list (event p)) : Prop :=
  forall i v, In (EAlloc i v) tr \/ In (EInput i v) tr -> v = Some (s i).

Fixpoint vars (tr : list (event p)) (U : list Index) : list Index :=
  match tr with
  | [] => U
  | EAlloc i _ :: tr' | EInput i _ :: tr' => vars tr' (i :: U)
  | EEnf _ _ _ :: tr' => vars tr' U
  end.
Fixpoint ncons (tr : list (event p)) : nat :=
  match tr with
  | [] => O
  | EEnf _ _ _ :: tr' => S (ncons tr')
  | _ :: tr' => ncons tr'
  end.
Fixpoint nvars (tr : list (event p)) : nat :=
  match tr with
  | [] => O
  | EEnf _ _ _ :: tr' => nvars tr'
  | _ :: tr' => S (nvars tr')
  end.

(** Every program has a run. *)
Definition inum (i : Index) : nat := match i with Input n => n | Aux n => n end.
Definition fresh (U : list Index) : Index := Aux (S (list_max (map inum U))).
Lemma fresh_ok U : ~ In (fresh U) U.
Proof.
  intros H. assert (Forall (fun k => (k <= list_max (map inum U))%nat) (map inum U)) as G
    by (apply list_max_le; lia).
  rewrite Forall_forall in G. specialize (G _ (in_map inum _ _ H)). cbn in G. lia.
Qed.
Lemma exec_exists {A} (m : prog p A) U : exists tr o, exec U m tr o.
Proof.
  revert U. induction m as [a| |v k IH|v k IH|a b c k IH]; intros U.
  - do 2 eexists; constructor.
  - do 2 eexists; constructor.
  - destruct (IH (fresh U) (fresh U :: U)) as [tr [o H]]. do 2 eexists; econstructor; eauto using fresh_ok.
  - destruct (IH (fresh U) (fresh U :: U)) as [tr [o H]]. do 2 eexists; econstructor; eauto using fresh_ok.
  - destruct (IH U) as [tr [o H]]. do 2 eexists; constructor; eauto.
Qed.

(** Modes of the rules: [Sound] - an arbitrary satisfying assignment, panics
    are harmless; [Honest] - the supplied values are the assignment, nothing
    panics and constraints have to hold; [Setup] - nothing panics, no values. *)
Inductive mode := Sound | Honest | Setup.

(** Variables in use and number of constraints so far. *)
Record st := mkst { su : list Index; sn : nat }.

Fixpoint wp {A} (md : mode) (s : Index -> F) (S0 : st) (m : prog p A) (Q : st -> A -> Prop) : Prop :=
  match m with
  | Ret a => Q S0 a
  | PPanic => md = Sound
  | Alloc v k | AllocInput v k =>
      (md = Honest -> v <> None) /\
      forall i, ~ In i (su S0) -> (md = Honest -> v = Some (s i)) ->
        wp md s (mkst (i :: su S0) (sn S0)) (k i) Q
  | Enforce a b c k =>
      (md = Honest -> holds s a b c) /\
      ((md <> Setup -> holds s a b c) -> wp md s (mkst (su S0) (S (sn S0))) k Q)
  end.

(** Adequacy. *)
Theorem wp_sound {A} (m : prog p A) s U tr a Q n :
  wp Sound s (mkst U n) m Q -> exec U m tr (Some a) -> sat s tr ->
  Q (mkst (vars tr U) (n + ncons tr)) a.
Proof.
  intros Hw He. remember (Some a) as o eqn:Eo. revert n Hw Eo.
  induction He; intros n0 Hw Eo Hs; cbn [wp] in Hw; try discriminate.
  - inversion Eo; subst. cbn [vars ncons]. rewrite Nat.add_0_r. exact Hw.
  - destruct Hw as [_ Hw]. apply (IHHe n0); auto.
    + apply Hw; cbn; auto. discriminate.
    + intros x y z Hin. apply Hs. now right.
  - destruct Hw as [_ Hw]. apply (IHHe n0); auto.
    + apply Hw; cbn; auto. discriminate.
    + intros x y z Hin. apply Hs. now right.
  - destruct Hw as [_ Hw]. cbn [vars ncons]. rewrite <- Nat.add_succ_comm. apply (IHHe (S n0)); auto.
    + apply Hw. intros _. apply Hs. now left.
    + intros x y z Hin. apply Hs. now right.
Qed.

Theorem wp_honest {A} (m : prog p A) s U tr o Q n :
  wp Honest s (mkst U n) m Q -> exec U m tr o -> honest s tr ->
  sat s tr /\ exists a, o = Some a /\ Q (mkst (vars tr U) (n + ncons tr)) a.
Proof.
  intros Hw He. revert n Hw.
  induction He; intros n0 Hw Hh; cbn [wp] in Hw; try discriminate.
  - split; [intros ? ? ? []|]. exists a. cbn [vars ncons]. rewrite Nat.add_0_r. auto.
  - destruct Hw as [_ Hw]. destruct (IHHe n0) as [H1 H2].
    + apply Hw; cbn; auto. intros _. apply Hh. left; now left.
    + intros x y Hin. apply Hh. destruct Hin; [left|right]; now right.
    + split; [|exact H2]. intros x y z [E|Hin]; [discriminate|auto].
  - destruct Hw as [_ Hw]. destruct (IHHe n0) as [H1 H2].
    + apply Hw; cbn; auto. intros _. apply Hh. right; now left.
    + intros x y Hin. apply Hh. destruct Hin; [left|right]; now right.
    + split; [|exact H2]. intros x y z [E|Hin]; [discriminate|auto].
  - destruct Hw as [Hc Hw]. destruct (IHHe (S n0)) as [H1 H2].
    + apply Hw. auto.
    + intros x y Hin. apply Hh. destruct Hin; [left|right]; now right.
    + split.
      * intros x y z [E|Hin]; [inversion E; subst; auto|auto].
      * cbn [vars ncons]. rewrite <- Nat.add_succ_comm. exact H2.
Qed.

Theorem wp_setup {A} (m : prog p A) s U tr o Q n :
  wp Setup s (mkst U n) m Q -> exec U m tr o ->
  exists a, o = Some a /\ Q (mkst (vars tr U) (n + ncons tr)) a.
Proof.
  intros Hw He. revert n Hw.
  induction He; intros n0 Hw; cbn [wp] in Hw; try discriminate.
  - exists a. cbn [vars ncons]. rewrite Nat.add_0_r. auto.
  - destruct Hw as [_ Hw]. apply (IHHe n0), Hw; cbn; auto. discriminate.
  - destruct Hw as [_ Hw]. apply (IHHe n0), Hw; cbn; auto. discriminate.
  - destruct Hw as [Hc Hw]. cbn [vars ncons]. rewrite <- Nat.add_succ_comm.
    apply (IHHe (S n0)), Hw. congruence.
Qed.

(** An honest assignment exists: values handed out for distinct indices. *)
Lemma exec_values {A} (m : prog p A) U tr o :
  exec U m tr o -> (forall i v, In (EAlloc i v) tr \/ In (EInput i v) tr -> ~ In i U).
Proof.
  induction 1; intros i' v'; cbn; intros HH.
  - tauto.
  - tauto.
  - destruct HH as [[E|HH]|[E|HH]]; try discriminate.
    + inversion E; subst; auto.
    + intros Hin. eapply IHexec; eauto. now right.
    + intros Hin. eapply IHexec; eauto. now right.
  - destruct HH as [[E|HH]|[E|HH]]; try discriminate.
    + intros Hin. eapply IHexec; eauto. now right.
    + inversion E; subst; auto.
    + intros Hin. eapply IHexec; eauto. now right.
  - destruct HH as [[E|HH]|[E|HH]]; try discriminate; eapply IHexec; eauto.
Qed.

Lemma honest_exists {A} (m : prog p A) U tr o (s0 : Index -> F) :
  exec U m tr o ->
  (forall i, ~ In (EAlloc i None) tr /\ ~ In (EInput i None) tr) ->
  exists s, (forall i, In i U -> s i = s0 i) /\ honest s tr.
Proof.
  intros He. revert s0. induction He; intros s0 Hv.
  - exists s0. split; auto. intros ? ? [[]|[]].
  - exists s0. split; auto. intros ? ? [[]|[]].
  - destruct v as [v|]; [|exfalso; apply (proj1 (Hv i)); now left].
    destruct (IHHe (fun j => if ieqb j i then v else s0 j)) as [s [H1 H2]].
    { intros j. split; intros Hin; [apply (proj1 (Hv j))|apply (proj2 (Hv j))]; now right. }
    exists s. split.
    + intros j Hj. rewrite H1 by now right. destruct (ieqb j i) eqn:E; auto.
      apply ieqb_eq in E; subst; contradiction.
    + intros j w [[E|Hin]|[E|Hin]]; try discriminate; auto.
      inversion E; subst. rewrite (H1 j) by now left. now rewrite ieqb_refl.
  - destruct v as [v|]; [|exfalso; apply (proj2 (Hv i)); now left].
    destruct (IHHe (fun j => if ieqb j i then v else s0 j)) as [s [H1 H2]].
    { intros j. split; intros Hin; [apply (proj1 (Hv j))|apply (proj2 (Hv j))]; now right. }
    exists s. split.
    + intros j Hj. rewrite H1 by now right. destruct (ieqb j i) eqn:E; auto.
      apply ieqb_eq in E; subst; contradiction.
    + intros j w [[E|Hin]|[E|Hin]]; try discriminate; auto.
      inversion E; subst. rewrite (H1 j) by now left. now rewrite ieqb_refl.
  - destruct (IHHe s0) as [s [H1 H2]].
    { intros j. split; intros Hin; [apply (proj1 (Hv j))|apply (proj2 (Hv j))]; now right. }
    exists s. split; auto. intros j w [[E|Hin]|[E|Hin]]; try discriminate; auto.
Qed.

(** Structural rules. *)
Lemma wp_mono {A} md s S0 (m : prog p A) (Q Q' : st -> A -> Prop) :
  wp md s S0 m Q ->
  (forall S1 a, incl (su S0) (su S1) -> Q S1 a -> Q' S1 a) -> wp md s S0 m Q'.
Proof.
  revert S0. induction m as [a| |v k IH|v k IH|a b c k IH]; intros S0; cbn [wp]; intros H HQ.
  - apply HQ; auto using incl_refl.
  - exact H.
  - destruct H as [H1 H2]. split; auto. intros i Hi Hv. apply IH; auto.
    intros S1 a Hinc. apply HQ. cbn in Hinc. intros j Hj. apply Hinc. now right.
  - destruct H as [H1 H2]. split; auto. intros i Hi Hv. apply IH; auto.
    intros S1 a Hinc. apply HQ. cbn in Hinc. intros j Hj. apply Hinc. now right.
  - destruct H as [H1 H2]. split; auto.
Qed.

Lemma wp_bind {A B} md s S0 (m : prog p A) (f : A -> prog p B) Q :
  wp md s S0 (pbind m f) Q <-> wp md s S0 m (fun S1 a => wp md s S1 (f a) Q).
Proof.
  revert S0. induction m as [a| |v k IH|v k IH|a b c k IH]; intros S0; cbn [wp pbind]; try tauto.
  - split; (intros [H1 H2]; split; [exact H1 | intros i Hi Hv; apply IH; auto]).
  - split; (intros [H1 H2]; split; [exact H1 | intros i Hi Hv; apply IH; auto]).
  - split; (intros [H1 H2]; split; [exact H1 | intros Hh; apply IH; auto]).
Qed.

Lemma wp_use {A B} md s S0 (m : prog p A) (f : A -> prog p B) P Q :
  wp md s S0 m P ->
  (forall S1 a, incl (su S0) (su S1) -> P S1 a -> wp md s S1 (f a) Q) ->
  wp md s S0 (pbind m f) Q.
Proof. intros H1 H2. apply wp_bind. eapply wp_mono; eauto. Qed.

Lemma wp_and {A} md s S0 (m : prog p A) P Q :
  wp md s S0 m P -> wp md s S0 m Q -> wp md s S0 m (fun S1 a => P S1 a /\ Q S1 a).
Proof.
  revert S0. induction m as [a| |v k IH|v k IH|a b c k IH]; intros S0; cbn [wp]; try tauto.
  - intros [H1 H2] [_ H3]. split; auto.
  - intros [H1 H2] [_ H3]. split; auto.
  - intros [H1 H2] [_ H3]. split; auto.
Qed.

Lemma wp_ret {A} md s S0 (a : A) (Q : st -> A -> Prop) : Q S0 a -> wp md s S0 (Ret a) Q.
Proof. auto. Qed.

(** In [Sound] mode a program may be assumed not to panic on values. *)
Lemma wp_lift_bind {A B} md s S0 (r : res A) (f : A -> prog p B) Q :
  (r = Panic -> md = Sound) -> (forall a, r = Ok a -> wp md s S0 (f a) Q) ->
  wp md s S0 (pbind (plift r) f) Q.
Proof. destruct r; cbn; auto. Qed.

Definition okS (s : Index -> F) (S0 : st) : Prop := In I0 (su S0) /\ s I0 = 1.

(** Well-formed circuit numbers. *)
Definition wf (S0 : st) (c : CNum p) : Prop :=
  canonical (clc c) /\ forall k v, In (k, v) (clc c) -> In k (su S0).

(** Cached values. *)
Definition vok (md : mode) (s : Index -> F) (c : CNum p) : Prop :=
  match md with
  | Sound => True
  | Honest => cvalue c = Some (ceval s c)
  | Setup => forall v, cvalue c = Some v -> as_const c = Some v
  end.

Definition good md s S0 c : Prop := wf S0 c /\ vok md s c.

Lemma wf_incl S0 S1 c : wf S0 c -> incl (su S0) (su S1) -> wf S1 c.
Proof. intros [H1 H2] Hi. split; auto. intros; apply Hi; eauto. Qed.
Lemma good_incl md s S0 S1 c : good md s S0 c -> incl (su S0) (su S1) -> good md s S1 c.
Proof. intros [H1 H2] Hi. split; auto. eapply wf_incl; eauto. Qed.
Lemma okS_incl s S0 S1 : okS s S0 -> incl (su S0) (su S1) -> okS s S1.
Proof. intros [H1 H2] Hi. split; auto. Qed.
End Sem.
