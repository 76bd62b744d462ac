(** Facts about every run of a gadget, whether or not its constraints hold:
    circuit numbers stay canonical and their cached values agree with the
    values handed to the back end. *)

From Verif Require Export NumSpec Bitify BitsTheory.

Section Always.
Context {p : positive}.
Notation F := (Num p).
Open Scope num_scope.

(** What is required of the numbers passed to [enforce]. *)
Definition egood (md : mode) s S0 (c : CNum p) : Prop := wf S0 c /\ (md = Honest -> cvalue c = Some (ceval s c)).
Lemma good_egood md s S0 c : good md s S0 c -> egood md s S0 c.
Proof. intros [H1 H2]. split; auto. intros ->. exact H2. Qed.

(** [alw md s S0 m Q]: in every run of [m] that does not panic, every
    circuit number passed to [enforce] is well-formed and [Q] holds at the end. In
    mode [Honest] the assignment [s] is what was handed to the back end. *)
Fixpoint alw {A} (md : mode) (s : Index -> F) (S0 : st) (m : prog p A) (Q : st -> A -> Prop) : Prop :=
  match m with
  | Ret a => Q S0 a
  | PPanic => True
  | Alloc v k | AllocInput v k =>
      (md = Honest -> v <> None) /\
      forall i, ~ In i (su S0) -> (md = Honest -> v = Some (s i)) ->
        alw md s (mkst (i :: su S0) (sn S0)) (k i) Q
  | Enforce a b c k =>
      (egood md s S0 a /\ egood md s S0 b /\ egood md s S0 c) /\ alw md s (mkst (su S0) (S (sn S0))) k Q
  end.

Definition trace_ok md s (S1 : st) (tr : list (event p)) : Prop :=
  forall a b c, In (EEnf a b c) tr -> egood md s S1 a /\ egood md s S1 b /\ egood md s S1 c.

Lemma vars_incl (tr : list (event p)) U : incl U (vars tr U).
Proof.
  revert U. induction tr as [|[i v|i v|a b c] tr IH]; intros U; cbn [vars]; auto using incl_refl;
    intros j Hj; apply IH; now right.
Qed.

Theorem alw_run {A} md (m : prog p A) s U tr o Q n :
  alw md s (mkst U n) m Q -> exec U m tr o -> (md = Honest -> honest s tr) ->
  trace_ok md s (mkst (vars tr U) 0) tr /\
  (forall a, o = Some a -> Q (mkst (vars tr U) (n + ncons tr)) a).
Proof.
  intros Hw He. revert n Hw.
  induction He as [U a|U|U v k i tr o Hi He IH|U v k i tr o Hi He IH|U a b c k tr o He IH]; intros n Hw Hh; cbn [alw] in Hw.
  - split; [intros ? ? ? []|]. intros a' E. inversion E; subst. cbn [vars ncons]. now rewrite Nat.add_0_r.
  - split; [intros ? ? ? []|discriminate].
  - destruct Hw as [_ Hw]. destruct (IH n) as [H1 H2].
    + apply Hw; auto. intros Em. apply Hh; auto. left. now left.
    + intros Em. specialize (Hh Em). intros j w [Hin|Hin]; apply Hh; [left|right]; now right.
    + split; auto. intros x y z [E|Hin]; [discriminate|]. apply H1; auto.
  - destruct Hw as [_ Hw]. destruct (IH n) as [H1 H2].
    + apply Hw; auto. intros Em. apply Hh; auto. right. now left.
    + intros Em. specialize (Hh Em). intros j w [Hin|Hin]; apply Hh; [left|right]; now right.
    + split; auto. intros x y z [E|Hin]; [discriminate|]. apply H1; auto.
  - destruct Hw as [Hg Hw]. destruct (IH (S n) Hw) as [H1 H2].
    + intros Em. specialize (Hh Em). intros j w [Hin|Hin]; apply Hh; [left|right]; now right.
    + split.
      * intros x y z [E|Hin]; [|now apply H1]. inversion E; subst.
        destruct Hg as [G1 [G2 G3]]. cbn [vars]. pose proof (vars_incl tr U) as I.
        repeat split; try apply G1; try apply G2; try apply G3; intros ? ? Hin; apply I; [eapply G1|eapply G2|eapply G3]; eauto.
      * cbn [vars ncons]. rewrite <- Nat.add_succ_comm. exact H2.
Qed.

Lemma alw_mono {A} md s S0 (m : prog p A) (Q Q' : st -> A -> Prop) :
  alw md s S0 m Q ->
  (forall S1 a, incl (su S0) (su S1) -> Q S1 a -> Q' S1 a) -> alw md s S0 m Q'.
Proof.
  revert S0. induction m as [a| |v k IH|v k IH|a b c k IH]; intros S0; cbn [alw]; intros H HQ.
  - apply HQ; auto using incl_refl.
  - exact H.
  - destruct H as [H1 H2]. split; auto. intros i Hi Hv. apply IH; auto.
    intros S1 a Hinc. apply HQ. cbn in Hinc. intros j Hj. apply Hinc. now right.
  - destruct H as [H1 H2]. split; auto. intros i Hi Hv. apply IH; auto.
    intros S1 a Hinc. apply HQ. cbn in Hinc. intros j Hj. apply Hinc. now right.
  - destruct H as [H1 H2]. split; auto.
Qed.
Lemma alw_bind {A B} md s S0 (m : prog p A) (f : A -> prog p B) Q :
  alw md s S0 (pbind m f) Q <-> alw md s S0 m (fun S1 a => alw md s S1 (f a) Q).
Proof.
  revert S0. induction m as [a| |v k IH|v k IH|a b c k IH]; intros S0; cbn [alw pbind]; try tauto.
  - split; (intros [H1 H2]; split; [exact H1 | intros i Hi Hv; apply IH; auto]).
  - split; (intros [H1 H2]; split; [exact H1 | intros i Hi Hv; apply IH; auto]).
  - split; (intros [H1 H2]; split; [exact H1 | apply IH; auto]).
Qed.
Lemma alw_use {A B} md s S0 (m : prog p A) (f : A -> prog p B) P Q :
  alw md s S0 m P ->
  (forall S1 a, incl (su S0) (su S1) -> P S1 a -> alw md s S1 (f a) Q) ->
  alw md s S0 (pbind m f) Q.
Proof. intros H1 H2. apply alw_bind. eapply alw_mono; eauto. Qed.
Lemma alw_ret {A} md s S0 (a : A) (Q : st -> A -> Prop) : Q S0 a -> alw md s S0 (Ret a) Q.
Proof. auto. Qed.
Lemma alw_lift {A B} md s S0 (r : res A) (f : A -> prog p B) Q :
  (forall a, r = Ok a -> alw md s S0 (f a) Q) -> alw md s S0 (pbind (plift r) f) Q.
Proof. destruct r; cbn; auto. Qed.
Lemma alw_lift0 {A} md s S0 (r : res A) (Q : st -> A -> Prop) :
  (forall a, r = Ok a -> Q S0 a) -> alw md s S0 (plift r) Q.
Proof. destruct r; cbn; auto. Qed.
Lemma alw_passert {B} md s S0 b (f : unit -> prog p B) Q :
  (b = true -> alw md s S0 (f tt) Q) -> alw md s S0 (pbind (passert b) f) Q.
Proof. destruct b; cbn; auto. Qed.
Lemma alw_passert0 md s S0 b (Q : st -> unit -> Prop) : Q S0 tt -> alw md s S0 (passert b) Q.
Proof. destruct b; cbn; auto. Qed.
Lemma alw_enforce md s S0 a b c (Q : st -> unit -> Prop) :
  good md s S0 a -> good md s S0 b -> good md s S0 c -> (forall S1, incl (su S0) (su S1) -> Q S1 tt) ->
  alw md s S0 (enforce a b c) Q.
Proof. intros G1 G2 G3 H. cbn. split; auto using good_egood. apply H. cbn. apply incl_refl. Qed.

(** Moving known facts to a later state. *)
Lemma Forall_good_incl' md s S0 S1 (l : list (CNum p)) :
  Forall (good md s S0) l -> incl (su S0) (su S1) -> Forall (good md s S1) l.
Proof. intros H I. eapply Forall_impl; [|exact H]. intros c Hc. eapply good_incl; eauto. Qed.
End Always.

(** The facts about the earlier state [S0], moved to [S1]. *)
Ltac lift_good I :=
  cbv beta in *;
  match type of I with incl (su ?S0) (su _) =>
    repeat match goal with
    | H : good _ _ S0 _ |- _ => apply (fun h => good_incl _ _ _ _ _ h I) in H
    | H : Forall (good _ _ S0) _ |- _ => apply (fun h => Forall_good_incl' _ _ _ _ _ h I) in H
    | H : okS _ S0 |- _ => apply (fun h => okS_incl _ _ _ h I) in H
    end
  end.

#[export] Hint Resolve good_const good_add good_add_cap good_add_rv good_sub good_neg
  good_add_num good_sub_num good_num_sub good_mul_num : alw.
#[export] Hint Extern 1 (good _ _ _ czero) => apply good_const : alw.
#[export] Hint Extern 1 (good _ _ _ cone) => apply good_const : alw.
#[export] Hint Extern 1 (good _ _ _ (cbconst _)) => apply good_const : alw.

(** Run [lem] first and carry the known facts over. *)
Ltac alw_step lem :=
  eapply alw_use; [solve [apply lem; eauto with alw]|];
  let I' := fresh "I" in let H' := fresh "G" in intros ? ? I' H'; cbv beta in H'; lift_good I'; clear I'.

Section AlwGadgets.
Context {p : positive} (Hp : prime (Zpos p)).
Notation F := (Num p).
Open Scope num_scope.
Context (md : mode) (s : Index -> F).
Notation GOOD := (fun S1 r => good md s S1 r).
Notation GOODS := (fun S1 r => Forall (good md s S1) r).
Notation TT := (fun (_ : st) (_ : unit) => True).

Lemma alw_calloc S0 (v : option F) :
  (md = Honest -> v <> None) -> (md = Setup -> v = None) ->
  alw md s S0 (calloc v) GOOD.
Proof.
  intros H1 H2. cbn. split; auto. intros i Hi Hh. split.
  - apply (wf_cvar Hp). now left.
  - destruct md; cbn [vok]; auto.
    + rewrite ceval_var. cbn. auto.
    + rewrite H2 by auto. discriminate.
Qed.
Lemma honest_value S0 a : good md s S0 a -> md = Honest -> cvalue a <> None.
Proof. intros [_ H] E. subst md. cbn in H. congruence. Qed.
Lemma setup_value S0 a : good md s S0 a -> nonconst a -> md = Setup -> cvalue a = None.
Proof. intros [_ H] Hn E. subst md. eapply vok_setup_none; eauto. Qed.

Lemma alw_inputize S0 a : okS s S0 -> good md s S0 a -> alw md s S0 (cinputize a) TT.
Proof.
  intros HS G. unfold cinputize.
  assert (K : forall v c, good md s S0 c -> (md = Honest -> v <> None) ->
     alw md s S0 (i <-- calloc_input v ;; enforce i cone c) TT).
  { intros v c Gc Hv. unfold calloc_input, enforce. cbn [pbind]. cbn [alw]. split; auto. intros i Hi Hh.
    assert (I1 : incl (su S0) (su (mkst (i :: su S0) (sn S0)))) by (intros j Hj; now right).
    lift_good I1. split; [|exact I]. split; [|split; apply good_egood; auto with alw].
    split; [apply (wf_cvar Hp); now left|]. intros E. rewrite ceval_var. cbn. auto. }
  destruct (as_const a) as [v|] eqn:E; apply K; auto with alw; try discriminate. now apply honest_value with S0.
Qed.

Lemma alw_cmul S0 a b : okS s S0 -> good md s S0 a -> good md s S0 b -> alw md s S0 (cmul a b) GOOD.
Proof.
  intros HS Ga Gb. unfold cmul.
  destruct (as_const a) as [va|] eqn:Ea; [apply alw_ret; auto with alw|].
  destruct (as_const b) as [vb|] eqn:Eb; [apply alw_ret; auto with alw|].
  eapply alw_use; [apply alw_calloc|].
  - intros E. pose proof (honest_value _ _ Ga E). pose proof (honest_value _ _ Gb E).
    destruct (cvalue a), (cvalue b); cbn; congruence.
  - intros E. rewrite (setup_value _ _ Ga Ea E). reflexivity.
  - intros S1 r I G. lift_good I. cbn. auto using good_egood.
Qed.
Lemma alw_csquare S0 a : okS s S0 -> good md s S0 a -> alw md s S0 (csquare a) GOOD.
Proof. intros. now apply alw_cmul. Qed.

Lemma good_cdiv_num S0 a k r : okS s S0 -> good md s S0 a -> cdiv_num a k = Ok r -> good md s S0 r.
Proof.
  intros HS G E. destruct (num_eq_dec k 0) as [->|Hk].
  - destruct (cdiv_num_Ok_inv _ _ _ E) as [|[E1 E2]]; [congruence|].
    unfold cdiv_num in E. rewrite E1, E2 in E. cbn in E. inversion E; subst.
    split; [split; [split; [cbn; constructor|intros ? ? []]|intros ? ? []]|]. destruct G as [_ G]. destruct md; cbn in *; auto; try congruence.
  - rewrite cdiv_num_ok in E by auto. inversion E; subst. now apply (good_divn Hp).
Qed.
Lemma alw_cdiv S0 a b : okS s S0 -> good md s S0 a -> good md s S0 b -> alw md s S0 (cdiv a b) GOOD.
Proof.
  intros HS Ga Gb. unfold cdiv.
  destruct (as_const a) as [va|] eqn:Ea; [apply alw_lift0; intros ? Hx; apply (good_cdiv_num _ _ _ _ HS) in Hx; auto|].
  destruct (as_const b) as [vb|] eqn:Eb; [apply alw_lift0; intros ? Hx; apply (good_cdiv_num _ _ _ _ HS) in Hx; auto|].
  apply alw_lift. intros v Hv. eapply alw_use; [apply alw_calloc|].
  - intros E. pose proof (honest_value _ _ Ga E). pose proof (honest_value _ _ Gb E).
    destruct (cvalue a), (cvalue b); cbn in Hv; try congruence. destruct ndiv; cbn in Hv; congruence.
  - intros E. rewrite (setup_value _ _ Ga Ea E) in Hv. cbn in Hv. congruence.
  - intros S1 r I G. lift_good I. cbn. auto using good_egood.
Qed.

Lemma alw_assert_const S0 a k : okS s S0 -> good md s S0 a -> alw md s S0 (cassert_const a k) TT.
Proof.
  intros HS G. unfold cassert_const. destruct as_const; [now apply alw_passert0|].
  apply alw_enforce; auto with alw.
Qed.
Lemma alw_assert_zero S0 a : okS s S0 -> good md s S0 a -> alw md s S0 (cassert_zero a) TT.
Proof. intros. now apply alw_assert_const. Qed.
Lemma alw_assert_eq S0 a b : okS s S0 -> good md s S0 a -> good md s S0 b -> alw md s S0 (cassert_eq a b) TT.
Proof. intros. apply alw_assert_zero; auto with alw. Qed.
Lemma inv_value_modes S0 a v : good md s S0 a -> nonconst a -> inv_value (cvalue a) = Ok v ->
  (md = Honest -> v <> None) /\ (md = Setup -> v = None).
Proof.
  intros G Hn Hv. split; intros E.
  - pose proof (honest_value _ _ G E). destruct (cvalue a) as [w|]; [|congruence]. cbn in Hv.
    destruct nis_zero; [congruence|]. destruct ninv; cbn in Hv; congruence.
  - rewrite (setup_value _ _ G Hn E) in Hv. cbn in Hv. congruence.
Qed.
Lemma alw_assert_nonzero S0 a : okS s S0 -> good md s S0 a -> alw md s S0 (cassert_nonzero a) TT.
Proof.
  intros HS G. unfold cassert_nonzero. destruct (as_const a) eqn:E; [now apply alw_passert0|].
  apply alw_lift. intros v Hv. destruct (inv_value_modes _ _ _ G E Hv) as [H1 H2].
  eapply alw_use; [apply alw_calloc; auto|]. intros S1 r I Gr. lift_good I. apply alw_enforce; auto with alw.
Qed.
Lemma alw_assert_bit S0 a : okS s S0 -> good md s S0 a -> alw md s S0 (cassert_bit a) TT.
Proof.
  intros HS G. unfold cassert_bit. destruct as_const; [now apply alw_passert0|].
  apply alw_enforce; auto with alw.
Qed.
Lemma alw_cballoc S0 v : (md = Honest -> v <> None) -> (md = Setup -> v = None) -> alw md s S0 (cballoc v) GOOD.
Proof.
  intros H1 H2. apply alw_calloc; intros E.
  - specialize (H1 E). destruct v; cbn; congruence.
  - now rewrite H2.
Qed.
Lemma alw_cb_assert S0 a : okS s S0 -> good md s S0 a -> alw md s S0 (cb_assert a) TT.
Proof. intros. now apply alw_assert_bit. Qed.
Lemma alw_cb_assert_const S0 a b : okS s S0 -> good md s S0 a -> alw md s S0 (cb_assert_const a b) TT.
Proof. intros. now apply alw_assert_const. Qed.
Lemma alw_is_zero S0 a : okS s S0 -> good md s S0 a -> alw md s S0 (cis_zero a) GOOD.
Proof.
  intros HS G. unfold cis_zero. destruct (as_const a) as [c|] eqn:E; [apply alw_ret; auto with alw|].
  apply alw_lift. intros v Hv. destruct (inv_value_modes _ _ _ G E Hv) as [H1 H2].
  eapply alw_use; [apply alw_calloc; auto|]. intros S1 i I Gi. lift_good I.
  alw_step alw_assert_nonzero. alw_step alw_cmul. alw_step alw_assert_bit. apply alw_ret. auto with alw.
Qed.
Lemma alw_is_eq S0 a b : okS s S0 -> good md s S0 a -> good md s S0 b -> alw md s S0 (cis_eq a b) GOOD.
Proof. intros. apply alw_is_zero; auto with alw. Qed.
Lemma alw_switch S0 a bit b : okS s S0 -> good md s S0 a -> good md s S0 bit -> good md s S0 b ->
  alw md s S0 (cswitch a bit b) GOOD.
Proof.
  intros HS Ga Gbit Gb. unfold cswitch. apply alw_lift. intros [[]|] _; try (apply alw_ret; auto).
  destruct Nat.ltb.
  - alw_step alw_cmul. apply alw_ret. auto with alw.
  - alw_step alw_cmul. apply alw_ret. auto with alw.
Qed.

(** Bits. *)
Lemma alw_bits_loop is vb : forall S0 k rem, okS s S0 -> good md s S0 rem ->
  (forall b, In b vb -> (md = Honest -> b <> None) /\ (md = Setup -> b = None)) ->
  alw md s S0 (bits_loop is vb k rem) (fun S1 r => good md s S1 (fst r) /\ Forall (good md s S1) (snd r)).
Proof.
  induction is as [|i is IH]; intros S0 k rem HS G Hvb; cbn [bits_loop].
  - apply alw_ret. cbn. auto.
  - cbv zeta. apply alw_lift. intros ob Hob. destruct (nth_error vb i) as [ob'|] eqn:E; [|discriminate].
    cbn in Hob. assert (ob' = ob) by congruence. subst ob'. apply nth_error_In in E. destruct (Hvb _ E) as [H1 H2].
    eapply alw_use; [apply alw_cballoc; auto|]. intros S1 b I1 Gb. lift_good I1.
    alw_step alw_cb_assert. eapply alw_use; [apply IH; auto with alw|].
    intros S3 r I3 [G1 G2]. lift_good I3. apply alw_ret. cbn. auto.
Qed.
Lemma alw_into_bits S0 x n : okS s S0 -> good md s S0 x -> alw md s S0 (c_into_bits_le x n) GOODS.
Proof.
  intros HS G. unfold c_into_bits_le. destruct (as_const x) as [v|] eqn:E.
  - apply alw_lift. intros [rem bits] Hr. apply alw_passert. intros _. apply alw_ret. cbn [snd].
    clear -HS Hr. revert Hr. generalize (seq 0 n) as is, (@n1 p) as k, (iterbit_le v) as vb. intros is k vb.
    revert rem bits k v. induction is as [|i is IH]; intros rem bits k rm Hr; cbn [const_bits_loop] in Hr.
    + inversion Hr; subst. constructor.
    + destruct (nth_error _ i); [|discriminate]. cbn [unwrap rbind] in Hr. cbv zeta in Hr.
      destruct (const_bits_loop is _ _ _) as [[rem' bits']|] eqn:El; [|discriminate]. cbn [rbind fst snd] in Hr.
      inversion Hr; subst. constructor; [now apply good_const|]. exact (IH _ _ _ _ El).
  - cbv zeta. eapply alw_use; [apply alw_bits_loop; auto|].
    + intros b Hb. split; intros Em.
      * pose proof (honest_value _ _ G Em). destruct (cvalue x); [|congruence].
        apply in_map_iff in Hb as [? [<- _]]. discriminate.
      * rewrite (setup_value _ _ G E Em) in Hb. now apply repeat_spec in Hb.
    + intros S1 r I [G1 G2]. lift_good I. alw_step alw_assert_bit.
      destruct n; [exact Logic.I|]. apply alw_ret. auto.
Qed.
Lemma alw_comp_loop n : forall S0 sig ct k acc, okS s S0 -> Forall (good md s S0) sig -> good md s S0 acc ->
  alw md s S0 (comp_loop n sig ct k acc) (fun S1 r => good md s S1 (snd r)).
Proof.
  induction n as [|n IH]; intros S0 sig ct k acc HS Hs G; cbn [comp_loop].
  - apply alw_ret. auto.
  - destruct ct as [|cl [|cu ct]]; try exact I. destruct sig as [|sl [|sh sig]]; try exact I.
    inversion Hs as [|? ? G1 Hs1]; subst. inversion Hs1 as [|? ? G2 Hs2]; subst. clear Hs Hs1.
    eapply alw_use; [apply alw_cmul; auto|]. intros S1 lu I1 G3. lift_good I1. cbv zeta.
    apply IH; auto. apply good_add_cap; auto. apply good_mul_num; auto. destruct cl, cu; auto 10 with alw.
Qed.
Lemma alw_comp_constant S0 sig ct : okS s S0 -> Forall (good md s S0) sig ->
  alw md s S0 (c_comp_constant sig ct) GOOD.
Proof.
  intros HS Hs. unfold c_comp_constant. cbv zeta. apply alw_passert. intros _.
  eapply alw_use; [apply alw_comp_loop; auto with alw|].
  - apply Forall_app. split; auto. destruct Nat.eqb; auto with alw.
  - intros S1 [k acc] I G. cbn [snd] in G. lift_good I.
    eapply alw_use; [apply alw_into_bits; auto with alw|]. intros S2 bits I2 Gb. lift_good I2.
    apply alw_lift0. intros r Hr. destruct nth_error eqn:E; [|discriminate]. cbn in Hr.
    assert (r = c) by congruence. subst. apply nth_error_In in E. rewrite Forall_forall in Gb. auto.
Qed.
Lemma alw_into_bits_strict S0 x : okS s S0 -> good md s S0 x -> alw md s S0 (c_into_bits_le_strict x) GOODS.
Proof.
  intros HS G. unfold c_into_bits_le_strict. alw_step alw_into_bits. alw_step alw_comp_constant.
  alw_step alw_cb_assert_const. now apply alw_ret.
Qed.
Lemma good_from_bits S0 bits r : okS s S0 -> Forall (good md s S0) bits -> c_from_bits_le bits = Ok r -> good md s S0 r.
Proof.
  intros HS G E. destruct bits as [|b bits]; [discriminate|]. cbn in E. inversion E; subst. clear E.
  inversion G as [|? ? G1 G2]; subst. clear G. revert b G1. generalize (@n1 p).
  induction bits as [|c bits IH]; intros k b G1; cbn [from_bits_loop]; auto.
  inversion G2; subst. apply IH; auto with alw.
Qed.
Lemma alw_pmapM {A B} (f : A -> prog p B) (P : st -> B -> Prop) (Inv : st -> Prop) l :
  (forall S0 S1 b, incl (su S0) (su S1) -> P S0 b -> P S1 b) ->
  (forall S0 S1, incl (su S0) (su S1) -> Inv S0 -> Inv S1) ->
  (forall S0 a, In a l -> Inv S0 -> alw md s S0 (f a) P) ->
  forall S0, Inv S0 -> alw md s S0 (pmapM f l) (fun S1 r => Forall (P S1) r).
Proof.
  intros Hm Hi. induction l as [|a l IH]; intros Hf S0 HI; cbn [pmapM].
  - apply alw_ret. constructor.
  - eapply alw_use; [apply Hf; [now left|auto]|]. intros S1 b I1 Pb.
    eapply alw_use; [apply IH; [intros; apply Hf; [now right|auto]|eauto]|].
    intros S2 bs I2 Hbs. apply alw_ret. constructor; eauto.
Qed.
Lemma alw_mux3 S0 sel c : okS s S0 -> Forall (good md s S0) sel -> alw md s S0 (c_mux3 sel c) GOODS.
Proof.
  intros HS G. unfold c_mux3. destruct sel as [|s0 [|s1 [|s2 [|? ?]]]]; try exact I.
  inversion G as [|? ? G0 Ga]; subst. inversion Ga as [|? ? G1 Gb]; subst. inversion Gb as [|? ? G2 _]; subst. clear G Ga Gb.
  apply alw_passert. intros _. eapply alw_use; [apply alw_cmul; auto|]. intros S1 s10 I1 G3. lift_good I1.
  apply (alw_pmapM _ (fun S r => good md s S r) (fun S => okS s S /\ good md s S s0 /\ good md s S s1 /\ good md s S s2 /\ good md s S s10)).
  - intros; eapply good_incl; eauto.
  - intros S2 S3 I2 [H1 [H2 [H3 [H4 H5]]]]. lift_good I2. auto.
  - intros S2 col _ [H1 [H2 [H3 [H4 H5]]]]. unfold mux3_col. cbv zeta.
    eapply alw_use; [apply alw_cmul; auto 10 with alw|]. intros S3 t I3 Gt. lift_good I3. apply alw_ret. auto 15 with alw.
  - auto.
Qed.
End AlwGadgets.
