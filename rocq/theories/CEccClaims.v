(** Claims about the curve and signature gadgets (circuit/ecc.rs,
    circuit/eddsaposeidon.rs). *)

From Verif Require Export EddsaClaims PoseidonClaims CEddsaSpec.
From Coq Require Import Lia.
Open Scope num_scope.

(** One rule per gadget yields its three circuit claims. [ins] are the inputs,
    [Pre] is assumed of the assignment, [PreH] only of an honest one, [E]
    holds of the result, whose signals are [out]; [N] is about the numbers of
    variables and constraints. *)
Lemma wp_gadget {p A} (U : list Index) (ins : list (CNum p)) (m : prog p A) (Pre PreH : (Index -> Num p) -> Prop)
    (E : (Index -> Num p) -> A -> Prop) (out : A -> list (CNum p)) (N : nat -> nat -> A -> Prop) :
  In I0 U -> Forall (owned U) ins ->
  (forall s s', (forall i, In i U -> s' i = s i) -> (Pre s -> Pre s') /\ (PreH s -> PreH s')) ->
  (forall md s, okS s (mkst U 0) -> Forall (good md s (mkst U 0)) ins -> (md <> Setup -> Pre s) -> (md = Honest -> PreH s) ->
     wp md s (mkst U 0) m (fun S1 r => Forall (good md s S1) (out r) /\ (md <> Setup -> E s r) /\
       forall k, length (su S1) = (length U + k)%nat -> N k (sn S1) r)) ->
  sound_for U m (fun s r => Pre s -> E s r) /\
  complete_for U m (fun s => Forall (valued s) ins /\ Pre s /\ PreH s) (fun s r => Forall (valued s) (out r) /\ E s r) /\
  (Forall blank ins -> synth_for U m (fun k n r => Forall blank (out r) /\ N k n r)).
Proof.
  intros H0 Ho Hx H. split; [|split].
  - intros s tr a H1 He Hs HP. apply (wp_sound m s U tr a (fun _ a => E s a) 0); auto.
    assert (X : wp Sound s (mkst U 0) m (fun S1 r => Forall (good Sound s S1) (out r) /\ (Sound <> Setup -> E s r) /\
       forall k, length (su S1) = (length U + k)%nat -> N k (sn S1) r)).
    { apply H; [now split|now apply Forall_good_sound|auto|intros X; discriminate X]. }
    eapply wp_mono; [exact X|]. cbv beta. intros S1 r _ [_ [Y _]]. apply Y. intros Z; discriminate Z.
  - apply wp_complete_for; auto.
    + intros s s' X [V [HP HQ]]. split; [now apply (Forall_valued_ext U ins s)|]. split; now apply (Hx s).
    + intros s HS [V [HP HP']]. eapply wp_mono; [apply (H Honest s); auto with claims|]. cbv beta. intros S1 r _ [G [X _]].
      split; [now apply (Forall_good_valued s S1)|apply X; intros Z; discriminate Z].
  - intros B. apply wp_synth_for; auto. intros s HS. eapply wp_mono; [apply (H Setup s); auto with claims; congruence|]. cbv beta.
    intros S1 r _ [G [_ X]] k Hk. split; [now apply (Forall_good_blank s S1)|now apply X].
Qed.
Lemma complete_for_mono {p A} U (m : prog p A) (P P' : (Index -> Num p) -> Prop) (Q Q' : (Index -> Num p) -> A -> Prop) :
  (forall s, P' s -> P s) -> (forall s a, Q s a -> Q' s a) -> complete_for U m P Q -> complete_for U m P' Q'.
Proof.
  intros H1 H2 H s0 tr o E HP He. destruct (H s0 tr o E (H1 _ HP) He) as [s [a [A1 [A2 [A3 [A4 A5]]]]]]. exists s, a. auto 10.
Qed.
(** Without [PreH]; without [Pre]; and an assertion. *)
Lemma wp_gadgetP {p A} (U : list Index) (ins : list (CNum p)) (m : prog p A) (Pre : (Index -> Num p) -> Prop)
    (E : (Index -> Num p) -> A -> Prop) (out : A -> list (CNum p)) (N : nat -> nat -> A -> Prop) :
  In I0 U -> Forall (owned U) ins ->
  (forall s s', (forall i, In i U -> s' i = s i) -> Pre s -> Pre s') ->
  (forall md s, okS s (mkst U 0) -> Forall (good md s (mkst U 0)) ins -> (md <> Setup -> Pre s) ->
     wp md s (mkst U 0) m (fun S1 r => Forall (good md s S1) (out r) /\ (md <> Setup -> E s r) /\
       forall k, length (su S1) = (length U + k)%nat -> N k (sn S1) r)) ->
  sound_for U m (fun s r => Pre s -> E s r) /\
  complete_for U m (fun s => Forall (valued s) ins /\ Pre s) (fun s r => Forall (valued s) (out r) /\ E s r) /\
  (Forall blank ins -> synth_for U m (fun k n r => Forall blank (out r) /\ N k n r)).
Proof.
  intros H0 Ho Hx H. destruct (wp_gadget U ins m Pre (fun _ => True) E out N) as [A1 [A2 A3]]; auto.
  { intros s s' X. split; auto. now apply (Hx s). }
  split; [exact A1|]. split; [|exact A3]. revert A2. apply complete_for_mono; tauto.
Qed.
Lemma wp_gadgetH {p A} (U : list Index) (ins : list (CNum p)) (m : prog p A) (PreH : (Index -> Num p) -> Prop)
    (E : (Index -> Num p) -> A -> Prop) (out : A -> list (CNum p)) (N : nat -> nat -> A -> Prop) :
  In I0 U -> Forall (owned U) ins ->
  (forall s s', (forall i, In i U -> s' i = s i) -> PreH s -> PreH s') ->
  (forall md s, okS s (mkst U 0) -> Forall (good md s (mkst U 0)) ins -> (md = Honest -> PreH s) ->
     wp md s (mkst U 0) m (fun S1 r => Forall (good md s S1) (out r) /\ (md <> Setup -> E s r) /\
       forall k, length (su S1) = (length U + k)%nat -> N k (sn S1) r)) ->
  sound_for U m E /\
  complete_for U m (fun s => Forall (valued s) ins /\ PreH s) (fun s r => Forall (valued s) (out r) /\ E s r) /\
  (Forall blank ins -> synth_for U m (fun k n r => Forall blank (out r) /\ N k n r)).
Proof.
  intros H0 Ho Hx H. destruct (wp_gadget U ins m (fun _ => True) PreH E out N) as [A1 [A2 A3]]; auto.
  { intros s s' X. split; auto. now apply (Hx s). }
  split; [|split; [|exact A3]].
  - intros s tr a H1 He Hs. exact (A1 s tr a H1 He Hs I).
  - revert A2. apply complete_for_mono; tauto.
Qed.
Lemma wp_assertion {p A} (U : list Index) (ins : list (CNum p)) (m : prog p A) (E : (Index -> Num p) -> Prop) (N : nat -> nat -> Prop) :
  In I0 U -> Forall (owned U) ins ->
  (forall s s', (forall i, In i U -> s' i = s i) -> E s -> E s') ->
  (forall md s, okS s (mkst U 0) -> Forall (good md s (mkst U 0)) ins -> (md = Honest -> E s) ->
     wp md s (mkst U 0) m (fun S1 r => (md <> Setup -> E s) /\ forall k, length (su S1) = (length U + k)%nat -> N k (sn S1))) ->
  sound_for U m (fun s _ => E s) /\
  complete_for U m (fun s => Forall (valued s) ins /\ E s) (fun s _ => E s) /\
  (Forall blank ins -> synth_for U m (fun k n _ => N k n)).
Proof.
  intros H0 Ho Hx H. destruct (wp_gadgetH U ins m E (fun s _ => E s) (fun _ => []) (fun k n _ => N k n)) as [A1 [A2 A3]]; auto.
  { intros md s HS G HE. eapply wp_mono; [apply (H md s); auto|]. cbv beta. intros S1 r _ [X Y]. auto. }
  split; [exact A1|]. split; [revert A2; apply complete_for_mono; tauto|].
  intros B tr o He. destruct (A3 B tr o He) as [a [X [_ Y]]]. eauto.
Qed.

Definition coords {p} (P : CPoint p) : list (CNum p) := [px P; py P].
Lemma good_coords {p} md s S0 (P : CPoint p) : Forall (good md s S0) (coords P) <-> goodP md s S0 P.
Proof. unfold coords, goodP. rewrite !Forall_cons_iff. split; [tauto|]. intros H. pose proof (Forall_nil (good md s S0)). tauto. Qed.
Lemma cpe_ext {p} U (P : CPoint p) s s' : Forall (owned U) (coords P) -> (forall i, In i U -> s' i = s i) -> cpe s' P = cpe s P.
Proof.
  unfold coords. rewrite !Forall_cons_iff. intros [A [B _]] E. unfold cpe. now rewrite (ceval_ext_owned U _ s s' A E), (ceval_ext_owned U _ s s' B E).
Qed.
Lemma bump_count U S1 k n : bump (mkst U 0) S1 k n -> forall j, length (su S1) = (length U + j)%nat -> j = k /\ sn S1 = n.
Proof. intros [A B] j Hj. cbn [su sn] in *. lia. Qed.

(** The point is in the prime-order subgroup. *)
Definition insub {p l} (J : JubJub p l) (P : EPoint p) : Prop := on_curve (jd J) P /\ emul (jd J) (Zpos l) P = mkE 0 1.

(* C37 *)
Lemma claim_C37_add : forall (p l : positive) (J : JubJub p l) (U : list Index) (P Q : CPoint p), jubjub_ok J ->
  In I0 U -> Forall (owned U) (coords P ++ coords Q) -> Forall (fun c => as_const c = None) (coords P ++ coords Q) ->
  let m := ce_add (jd J) P Q in
  sound_for U m (fun s R => on_curve (jd J) (cpe s P) /\ on_curve (jd J) (cpe s Q) ->
     cpe s R = eadd (jd J) (cpe s P) (cpe s Q) /\ e_add (jd J) (cpe s P) (cpe s Q) = Ok (cpe s R)) /\
  complete_for U m (fun s => Forall (valued s) (coords P ++ coords Q) /\ (on_curve (jd J) (cpe s P) /\ on_curve (jd J) (cpe s Q)))
    (fun s R => Forall (valued s) (coords R) /\
       cpe s R = eadd (jd J) (cpe s P) (cpe s Q) /\ e_add (jd J) (cpe s P) (cpe s Q) = Ok (cpe s R)) /\
  (Forall blank (coords P ++ coords Q) -> synth_for U m (fun k n R => Forall blank (coords R) /\
     (as_const (cadd_cap (px P) (py P)) = None -> as_const (cadd_cap (px Q) (py Q)) = None -> k = 6%nat /\ n = 6%nat))).
Proof.
  intros p l J U P Q K H0 Ho Hn m. pose proof (j_p _ K) as Hp. pose proof (j_m1 _ K) as Hm1. pose proof (j_d _ K) as Hd.
  apply wp_gadgetP; auto.
  - apply Forall_app in Ho. intros s s' E. now rewrite (cpe_ext U P s s'), (cpe_ext U Q s s').
  - intros md s HS G HP. apply Forall_app in G. destruct G as [GP GQ]. apply good_coords in GP, GQ.
    apply Forall_app in Hn. destruct Hn as [NP NQ]. unfold coords in NP, NQ. rewrite !Forall_cons_iff in NP, NQ.
    eapply wp_mono; [apply (wp_ce_add Hp _ _ _ Hm1 Hd (j_mont _ K) md s (mkst U 0) P Q); auto; split; tauto|]. cbv beta.
    intros S1 R _ [GR [ER [_ [_ B]]]]. split; [now apply good_coords|]. split.
    + intros Hm. rewrite (ER Hm). split; auto. apply (e_add_ok Hp _ Hm1 Hd); apply (HP Hm).
    + intros k Hk N1 N2. exact (bump_count U S1 6 6 (B N1 N2) k Hk).
Qed.
Lemma claim_C37_double : forall (p l : positive) (J : JubJub p l) (U : list Index) (P : CPoint p), jubjub_ok J ->
  In I0 U -> Forall (owned U) (coords P) -> Forall (fun c => as_const c = None) (coords P) ->
  let m := ce_double (jd J) P in
  sound_for U m (fun s R => on_curve (jd J) (cpe s P) ->
     cpe s R = eadd (jd J) (cpe s P) (cpe s P) /\ e_double (cpe s P) = Ok (cpe s R)) /\
  complete_for U m (fun s => Forall (valued s) (coords P) /\ on_curve (jd J) (cpe s P))
    (fun s R => Forall (valued s) (coords R) /\
       cpe s R = eadd (jd J) (cpe s P) (cpe s P) /\ e_double (cpe s P) = Ok (cpe s R)) /\
  (Forall blank (coords P) -> synth_for U m (fun k n R => Forall blank (coords R) /\
     (as_const (cadd_cap (px P) (py P)) = None -> k = 5%nat /\ n = 5%nat))).
Proof.
  intros p l J U P K H0 Ho Hn m. pose proof (j_p _ K) as Hp. pose proof (j_m1 _ K) as Hm1. pose proof (j_d _ K) as Hd.
  apply wp_gadgetP; auto.
  - intros s s' E. now rewrite (cpe_ext U P s s').
  - intros md s HS GP HP. apply good_coords in GP. unfold coords in Hn. rewrite !Forall_cons_iff in Hn.
    eapply wp_mono; [apply (wp_ce_double Hp _ _ _ Hm1 Hd (j_mont _ K) md s (mkst U 0) P); auto; split; tauto|]. cbv beta.
    intros S1 R _ [GR [ER [_ [_ B]]]]. split; [now apply good_coords|]. split.
    + intros Hm. rewrite (ER Hm). split; auto. apply (e_double_ok Hp _ Hm1 Hd); apply (HP Hm).
    + intros k Hk N1. exact (bump_count U S1 5 5 (B N1) k Hk).
Qed.
Lemma claim_C37_cofactor : forall (p l : positive) (J : JubJub p l) (U : list Index) (P : CPoint p), jubjub_ok J ->
  In I0 U -> Forall (owned U) (coords P) -> Forall (fun c => as_const c = None) (coords P) ->
  let m := ce_mul_by_cofactor (jd J) P in
  sound_for U m (fun s R => on_curve (jd J) (cpe s P) ->
     cpe s R = emul (jd J) 8 (cpe s P) /\ e_mul_by_cofactor (cpe s P) = Ok (cpe s R)) /\
  complete_for U m (fun s => Forall (valued s) (coords P) /\ on_curve (jd J) (cpe s P))
    (fun s R => Forall (valued s) (coords R) /\
       cpe s R = emul (jd J) 8 (cpe s P) /\ e_mul_by_cofactor (cpe s P) = Ok (cpe s R)) /\
  (Forall blank (coords P) -> synth_for U m (fun k n R => Forall blank (coords R) /\
     (as_const (cadd_cap (px P) (py P)) = None -> k = 15%nat /\ n = 15%nat))).
Proof.
  intros p l J U P K H0 Ho Hn m. pose proof (j_p _ K) as Hp. pose proof (j_m1 _ K) as Hm1. pose proof (j_d _ K) as Hd.
  apply wp_gadgetP; auto.
  - intros s s' E. now rewrite (cpe_ext U P s s').
  - intros md s HS GP HP. apply good_coords in GP. unfold coords in Hn. rewrite !Forall_cons_iff in Hn.
    eapply wp_mono; [apply (wp_ce_cofactor Hp _ _ _ Hm1 Hd (j_mont _ K) md s (mkst U 0) P); auto; split; tauto|]. cbv beta.
    intros S1 R _ [GR [ER [_ [_ B]]]]. split; [now apply good_coords|]. split.
    + intros Hm. rewrite (ER Hm). split; auto. apply (e_cofactor_ok Hp _ Hm1 Hd); apply (HP Hm).
    + intros k Hk N1. exact (bump_count U S1 15 15 (B N1) k Hk).
Qed.

(* C38 *)
Lemma claim_C38_in_curve : forall (p l : positive) (J : JubJub p l) (U : list Index) (P : CPoint p), jubjub_ok J ->
  In I0 U -> Forall (owned U) (coords P) ->
  let m := ce_assert_in_curve (jd J) P in
  sound_for U m (fun s _ => on_curve (jd J) (cpe s P)) /\
  complete_for U m (fun s => Forall (valued s) (coords P) /\ on_curve (jd J) (cpe s P)) (fun s _ => on_curve (jd J) (cpe s P)) /\
  (Forall blank (coords P) -> synth_for U m (fun k n _ => Forall (fun c => as_const c = None) (coords P) -> k = 2%nat /\ n = 3%nat)).
Proof.
  intros p l J U P K H0 Ho m. pose proof (j_p _ K) as Hp. pose proof (j_m1 _ K) as Hm1. pose proof (j_d _ K) as Hd.
  apply wp_assertion; auto.
  - intros s s' E. now rewrite (cpe_ext U P s s').
  - intros md s HS GP HP. apply good_coords in GP.
    eapply wp_mono; [apply (wp_ce_in_curve Hp _ _ _ Hm1 Hd (j_mont _ K) md s (mkst U 0) P); auto|]. cbv beta.
    intros S1 R _ [ER B]. split; [exact ER|].
    intros k Hk Hn. unfold coords in Hn. rewrite !Forall_cons_iff in Hn. exact (bump_count U S1 2 3 (B ltac:(split; tauto)) k Hk).
Qed.
Lemma claim_C38_in_subgroup : forall (p l : positive) (J : JubJub p l) (U : list Index) (P : CPoint p), jubjub_ok J ->
  In I0 U -> Forall (owned U) (coords P) ->
  let m := ce_assert_in_subgroup l (jd J) P in
  sound_for U m (fun s _ => insub J (cpe s P)) /\
  complete_for U m (fun s => Forall (valued s) (coords P) /\ insub J (cpe s P)) (fun s _ => insub J (cpe s P)) /\
  (Exists (fun c => as_const c = None) (coords P) -> Forall blank (coords P) -> synth_for U m (fun k n _ => k = 19%nat /\ n = 20%nat)).
Proof.
  intros p l J U P K H0 Ho m.
  assert (W : forall md s, okS s (mkst U 0) -> Forall (good md s (mkst U 0)) (coords P) ->
     (md = Setup -> Exists (fun c => as_const c = None) (coords P)) -> (md = Honest -> insub J (cpe s P)) ->
     wp md s (mkst U 0) m (fun S1 r => (md <> Setup -> insub J (cpe s P)) /\ forall k, length (su S1) = (length U + k)%nat -> k = 19%nat /\ sn S1 = 20%nat)).
  { intros md s HS GP X HP. apply good_coords in GP.
    eapply wp_mono; [apply (wp_ce_in_subgroup _ K md s (mkst U 0) P); auto|].
    - intros ->. specialize (X eq_refl). destruct GP as [[_ G1] [_ G2]]. unfold cp_get_value, coords in *.
      rewrite !Exists_cons in X. destruct X as [X|[X|X]]; [..|inversion X].
      + now rewrite (vok_setup_none s (px P)).
      + rewrite (vok_setup_none s (py P)) by auto. now destruct (cvalue (px P)).
    - cbv beta. intros S1 R _ [ER B]. split; [exact ER|]. exact (bump_count U S1 19 20 B). }
  assert (X : forall s s', (forall i, In i U -> s' i = s i) -> insub J (cpe s P) -> insub J (cpe s' P)).
  { intros s s' E. now rewrite (cpe_ext U P s s'). }
  split; [|split].
  - apply wp_sound_for; auto. intros s HS. eapply wp_mono; [apply (W Sound s); auto with claims; intros Z; discriminate Z|].
    cbv beta. intros S1 r _ [Y _]. apply Y. intros Z; discriminate Z.
  - apply wp_complete_for; auto.
    + intros s s' E [V HP]. split; [now apply (Forall_valued_ext U _ s)|now apply (X s)].
    + intros s HS [V HP]. eapply wp_mono; [apply (W Honest s); auto with claims; intros Z; discriminate Z|]. tauto.
  - intros HX HB. apply wp_synth_for; auto. intros s HS. eapply wp_mono; [apply (W Setup s); auto with claims; intros Z; discriminate Z|].
    cbv beta. intros S1 r _ [_ Y]. exact Y.
Qed.
(** What the assertion means: the native test, and a multiple of the base point. *)
Lemma claim_C38_subgroup_meaning : forall (p l : positive) (J : JubJub p l) (P : EPoint p), jubjub_ok J -> on_curve (jd J) P ->
  (insub J P <-> x_is_in_subgroup l (jd J) (e_into_extended P) = true) /\
  (insub J P <-> exists k, (0 <= k < Zpos l)%Z /\ P = emul (jd J) k (jg J)).
Proof.
  intros p l J P K HP. pose proof (j_p _ K) as Hp. pose proof (j_m1 _ K) as Hm1. pose proof (j_d _ K) as Hd.
  assert (A : insub J P <-> x_is_in_subgroup l (jd J) (e_into_extended P) = true).
  { destruct (e_into_extended_ok Hp _ Hm1 Hd _ HP) as [HX EX]. rewrite (x_is_in_subgroup_iff Hp _ Hm1 Hd), EX by auto.
    unfold insub. split; [tauto|]. intros; split; auto. }
  split; auto. rewrite A. now apply claim_C33_subgroup.
Qed.

(* C39 *)
Lemma claim_C39_decompress : forall (p l : positive) (J : JubJub p l) (sqrt : Num p -> option (Num p)) (U : list Index) (x : CNum p), jubjub_ok J ->
  (forall a, match sqrt a with Some b => b * b = a | None => ~ is_square a end) ->
  In I0 U -> owned U x -> as_const x = None ->
  let m := ce_subgroup_decompress sqrt J x in
  sound_for U m (fun s R => insub J (cpe s R) /\ ex (cpe s R) = ceval s x /\
    (forall Q, insub J Q -> ex Q = ceval s x -> Q = cpe s R) /\ subgroup_decompress sqrt l (jd J) (ceval s x) = Ok (Some (cpe s R))) /\
  complete_for U m (fun s => Forall (valued s) [x] /\ exists P, insub J P /\ ex P = ceval s x)
    (fun s R => Forall (valued s) (coords R) /\ insub J (cpe s R) /\ ex (cpe s R) = ceval s x /\
    (forall Q, insub J Q -> ex Q = ceval s x -> Q = cpe s R) /\ subgroup_decompress sqrt l (jd J) (ceval s x) = Ok (Some (cpe s R))) /\
  (Forall blank [x] -> synth_for U m (fun k n R => Forall blank (coords R) /\ k = 19%nat /\ n = 19%nat)).
Proof.
  intros p l J sqrt U x K Hs H0 Ho Hn m. pose proof (j_p _ K) as Hp. pose proof (j_m1 _ K) as Hm1. pose proof (j_d _ K) as Hd.
  apply wp_gadgetH; auto.
  - intros s s' E. now rewrite (ceval_ext_owned U x s s' Ho E).
  - intros md s HS G HP. rewrite Forall_cons_iff in G. destruct G as [Gx _].
    eapply wp_mono; [apply (wp_ce_decompress _ K sqrt md s (mkst U 0) x); auto|].
    { intros ->. apply (vok_setup_none s x); auto. apply Gx. }
    cbv beta. intros S1 R _ [GR [ER [_ [_ B]]]]. split; [now apply good_coords|]. split.
    + intros Hm. destruct (ER Hm) as [E1 E2]. split; [exact E1|]. split; [exact E2|].
      assert (Un : forall Q, insub J Q -> ex Q = ceval s x -> Q = cpe s R) by (intros Q HQ EQ; apply (sub_x_inj J K); auto; congruence).
      split; [exact Un|].
      destruct (subgroup_decompress_ok Hp _ Hm1 Hd sqrt Hs l (ceval s x) (j_odd _ K)) as [[Q|] [-> HQ]].
      * destruct HQ as [Q1 [Q2 [Q3 _]]]. rewrite (Un Q); auto. now split.
      * exfalso. apply (HQ (cpe s R)); auto. apply E1. apply E1.
    + intros k Hk. exact (bump_count U S1 19 19 B k Hk).
Qed.
(** No point of the subgroup has that x coordinate: the circuit has no
    satisfying assignment. *)
Lemma claim_C39_unsatisfiable : forall (p l : positive) (J : JubJub p l) (sqrt : Num p -> option (Num p)) (U : list Index) (x : CNum p) s tr R, jubjub_ok J ->
  (forall a, match sqrt a with Some b => b * b = a | None => ~ is_square a end) ->
  In I0 U -> owned U x -> as_const x = None -> s I0 = 1 ->
  subgroup_decompress sqrt l (jd J) (ceval s x) = Ok None ->
  exec U (ce_subgroup_decompress sqrt J x) tr (Some R) -> ~ sat s tr.
Proof.
  intros p l J sqrt U x s tr R K Hs H0 Ho Hn H1 HN He Hsat.
  destruct (claim_C39_decompress p l J sqrt U x K Hs H0 Ho Hn) as [A _]. destruct (A s tr R H1 He Hsat) as [_ [_ [_ E]]]. congruence.
Qed.

(* C40 *)
Lemma claim_C40_mul : forall (p l : positive) (J : JubJub p l) (U : list Index) (P : CPoint p) (bits : list (CBool p)) (bs : list bool), jubjub_ok J ->
  In I0 U -> Forall (owned U) (coords P ++ bits) -> Forall (fun c => as_const c = None) (coords P) ->
  Exists (fun b => as_const b <> Some 0) bits -> Forall (fun b => forall v, as_const b = Some v -> v = 0 \/ v = 1) bits ->
  let m := ce_mul J P bits in
  sound_for U m (fun s R => insub J (cpe s P) /\ ebits s bits bs ->
     cpe s R = emul (jd J) (bval bs) (cpe s P) /\ e_mul (jd J) (cpe s P) (num (bval bs) : Num l) = Ok (cpe s R)) /\
  complete_for U m (fun s => Forall (valued s) (coords P ++ bits) /\ insub J (cpe s P) /\ ebits s bits bs)
    (fun s R => Forall (valued s) (coords R) /\
     cpe s R = emul (jd J) (bval bs) (cpe s P) /\ e_mul (jd J) (cpe s P) (num (bval bs) : Num l) = Ok (cpe s R)) /\
  (Forall blank (coords P ++ bits) -> synth_for U m (fun k n R => Forall blank (coords R) /\
     (Forall (fun b => as_const b = None) bits -> k = (9 * length bits + 10)%nat /\ n = (9 * length bits + 10)%nat))).
Proof.
  intros p l J U P bits bs K H0 Ho Hn Hx Hb m. pose proof (j_p _ K) as Hp. pose proof (j_m1 _ K) as Hm1. pose proof (j_d _ K) as Hd.
  pose proof (edwards_group Hp _ Hm1 Hd) as EG. pose proof Ho as Ho'. apply Forall_app in Ho'. destruct Ho' as [OP OB].
  apply wp_gadgetP; auto.
  - intros s s' E. rewrite (cpe_ext U P s s') by auto. intros [A B]. split; auto. now apply (ebits_ext U bits s).
  - intros md s HS G HP. apply Forall_app in G. destruct G as [GP GB]. apply good_coords in GP.
    unfold coords in Hn. rewrite !Forall_cons_iff in Hn. destruct Hn as [N1 [N2 _]].
    assert (E : m = ce_mul_var J P bits) by (unfold m, ce_mul, cp_as_const; now rewrite N1). rewrite E.
    eapply wp_mono; [apply (wp_ce_mul_var _ K md s (mkst U 0) P bits bs); auto; try (intros Hm; apply (HP Hm)); now split|].
    cbv beta. intros S1 R _ [GR [ER [_ [_ B]]]]. split; [now apply good_coords|]. split.
    + intros Hm. rewrite (ER Hm). split; auto. destruct (HP Hm) as [[C1 C2] _]. rewrite (e_mul_ok Hp _ Hm1 Hd) by auto. f_equal.
      apply (zmul_congr EG (Zpos l)); auto. rewrite nval_num. apply Zmod_mod.
    + intros k Hk N. exact (bump_count U S1 _ _ (B N) k Hk).
Qed.

(* C41 *)
(** No combination of the first two (three) bits is the same in all
    assignments: they are not tied to one another, nor constant. *)
Definition free_bits {p} (bits : list (CBool p)) : Prop :=
  match bits with
  | [] | [_] => False
  | [b0; b1] => forall k0 k1 c : Num p,
      (forall s, s I0 = 1 -> k0 * ceval s b0 + k1 * ceval s b1 = c) -> k0 = 0 /\ k1 = 0
  | b0 :: b1 :: b2 :: _ => forall k0 k1 k2 c : Num p,
      (forall s, s I0 = 1 -> k0 * ceval s b0 + k1 * ceval s b1 + k2 * ceval s b2 = c) -> k0 = 0 /\ k1 = 0 /\ k2 = 0
  end.
Section Free.
Context {p : positive} (Hp : Prime p).
Add Field fr_field : (num_field Hp) (morphism (@num_morph p), constants [num_cst], power_tac (@num_power p) [num_pow_cst]).
Lemma nneg_0 : - (0) = (0 : Num p).
Proof using Hp. ring. Qed.
Lemma plus1_neq (t : Num p) : t + 1 <> t.
Proof using Hp. intros E. apply (n1_neq_n0 Hp). transitivity ((t + 1) - t); [ring|]. rewrite E. ring. Qed.
Lemma m1_plus1 : - (1) + 1 = (0 : Num p).
Proof using Hp. ring. Qed.
Lemma flat_const U (c : CNum p) : wf (mkst U 0) c -> (forall i, i <> I0 -> ccoef c i = 0) ->
  exists v, forall s, s I0 = 1 -> ceval s c = v.
Proof using Hp.
  intros [Hc _] H. destruct (as_const c) as [v|] eqn:E.
  - exists v. intros s Hs. now apply as_const_eval.
  - exfalso. destruct (nonconst_coef c Hc E) as [i [Hi Ci]]. apply Ci, H, Hi.
Qed.
Lemma free_bfirst U (bits : list (CBool p)) : In I0 U -> Forall (owned U) bits -> free_bits bits -> bfirst bits.
Proof using Hp.
  intros H0 Ho. destruct bits as [|b0 [|b1 [|b2 bits]]]; cbn [free_bits bfirst]; auto; rewrite !Forall_cons_iff in Ho.
  - intros H k0 k1 HC. destruct Ho as [O0 [O1 _]].
    set (c := cadd (cmul_num b0 k0) (cmul_num b1 k1)).
    destruct (flat_const U c) as [v Hv].
    { unfold c. apply wf_add; apply (wf_mul_num Hp); auto. }
    { intros i Hi. unfold c. rewrite ccoef_add, !ccoef_mul_num, <- (HC i Hi). ring. }
    apply (H k0 k1 v). intros s Hs. rewrite <- (Hv s Hs). unfold c. rewrite ceval_add, !ceval_mul_num. ring.
  - intros H k0 k1 k2 HC. destruct Ho as [O0 [O1 [O2 _]]].
    set (c := cadd (cadd (cmul_num b0 k0) (cmul_num b1 k1)) (cmul_num b2 k2)).
    destruct (flat_const U c) as [v Hv].
    { unfold c. apply wf_add; [apply wf_add|]; apply (wf_mul_num Hp); auto. }
    { intros i Hi. unfold c. rewrite !ccoef_add, !ccoef_mul_num, <- (HC i Hi). ring. }
    apply (H k0 k1 k2 v). intros s Hs. rewrite <- (Hv s Hs). unfold c. rewrite !ceval_add, !ceval_mul_num. ring.
Qed.
End Free.

Lemma claim_C41_mul : forall (p l : positive) (J : JubJub p l) (U : list Index) (P : CPoint p) (x y : Num p) (bits : list (CBool p)) (bs : list bool), jubjub_ok J -> (8 < Zpos l)%Z ->
  In I0 U -> Forall (owned U) bits -> cp_as_const P = Some (x, y) -> insub J (mkE x y) -> free_bits bits ->
  let m := ce_mul J P bits in
  sound_for U m (fun s R => ebits s bits bs ->
     cpe s R = emul (jd J) (bval bs) (mkE x y) /\ e_mul (jd J) (mkE x y) (num (bval bs) : Num l) = Ok (cpe s R)) /\
  complete_for U m (fun s => Forall (valued s) bits /\ ebits s bits bs)
    (fun s R => Forall (valued s) (coords R) /\
     cpe s R = emul (jd J) (bval bs) (mkE x y) /\ e_mul (jd J) (mkE x y) (num (bval bs) : Num l) = Ok (cpe s R)) /\
  (Forall blank bits -> synth_for U m (fun k n R => Forall blank (coords R) /\ (n <= 6 * ((length bits + 2) / 3) + 5)%nat)).
Proof.
  intros p l J U P x y bits bs K L8 H0 Ho HP Hc Hf m. pose proof (j_p _ K) as Hp. pose proof (j_m1 _ K) as Hm1. pose proof (j_d _ K) as Hd.
  pose proof (edwards_group Hp _ Hm1 Hd) as EG.
  apply wp_gadgetP; auto.
  - intros s s' E. now apply (ebits_ext U bits s).
  - intros md s HS G HB.
    assert (E : m = ce_mul_const J (mkE x y) bits) by (unfold m, ce_mul; now rewrite HP). rewrite E.
    eapply wp_mono; [apply (wp_ce_mul_const J K L8 md s (mkst U 0) (mkE x y) bits bs); auto|].
    { now apply (free_bfirst Hp U). }
    cbv beta. intros S1 R _ [GR [ER [Z0 Z1]]]. split; [now apply good_coords|]. split.
    + intros Hm. rewrite (ER Hm). split; auto. destruct Hc as [C1 C2]. rewrite (e_mul_ok Hp _ Hm1 Hd) by auto. f_equal.
      apply (zmul_congr EG (Zpos l)); auto. rewrite nval_num. apply Zmod_mod.
    + intros k Hk. assert (W : nwin (length bits) = ((length bits + 2) / 3)%nat).
      { destruct (padding_ok (length bits)) as [q Hq]. unfold nwin. rewrite Hq, Nat.mul_comm, Nat.div_mul by lia.
        unfold padding in Hq. pose proof (Nat.mod_upper_bound (3 - length bits mod 3) 3 ltac:(lia)).
        apply (Nat.div_unique (length bits + 2) 3 q (length bits + 2 - 3 * q)); lia. }
      destruct (e_eqb (mkE x y) e_zero) eqn:Ez.
      * apply e_eqb_eq in Ez. destruct (Z0 Ez) as [_ ->]. cbn. lia.
      * assert (N : mkE x y <> e_zero) by (intros X; apply e_eqb_eq in X; congruence).
        destruct (Z1 N) as [_ [_ [_ B]]]. cbn [sn] in B. change (@length (CNum p) bits) with (@length (CBool p) bits) in B. rewrite W in B. lia.
Qed.
(** The bits produced by the decomposition of a number meet the condition. *)
Lemma claim_C41_number : forall (p l : positive) (J : JubJub p l) (U : list Index) (P : CPoint p) (x y : Num p) (c : CNum p) (n : nat), jubjub_ok J -> (8 < Zpos l)%Z ->
  In I0 U -> owned U c -> as_const c = None -> cp_as_const P = Some (x, y) -> insub J (mkE x y) -> (2 <= n)%nat -> (n < num_bits p)%nat ->
  let m := bits <-- c_into_bits_le c n ;; ce_mul J P bits in
  sound_for U m (fun s R => (nval (ceval s c) < 2 ^ Z.of_nat n)%Z /\ cpe s R = emul (jd J) (nval (ceval s c)) (mkE x y)) /\
  complete_for U m (fun s => Forall (valued s) [c] /\ (nval (ceval s c) < 2 ^ Z.of_nat n)%Z)
    (fun s R => Forall (valued s) (coords R) /\ (nval (ceval s c) < 2 ^ Z.of_nat n)%Z /\ cpe s R = emul (jd J) (nval (ceval s c)) (mkE x y)) /\
  (Forall blank [c] -> synth_for U m (fun _ _ R => Forall blank (coords R) /\ True)).
Proof.
  intros p l J U P x y c n K L8 H0 Ho Hn HP Hc Hn2 Hnp m. pose proof (j_p _ K) as Hp.
  apply wp_gadgetH; auto.
  - intros s s' E. now rewrite (ceval_ext_owned U c s s' Ho E).
  - intros md s HS G HB. rewrite Forall_cons_iff in G. destruct G as [Gc _].
    unfold m. eapply wp_use; [apply (wp_into_bits_nc Hp md s (mkst U 0) c n); auto; try lia|].
    { intros Hm. split; [apply (HB Hm)|]. pose proof (num_bits_limbs p). lia. }
    intros S1 bits I1 [Gb [Lb [Nb [BP [[bs [Lbs [Ebs _]]] _]]]]]. lift I1. cbv beta.
    assert (E : ce_mul J P bits = ce_mul_const J (mkE x y) bits) by (unfold ce_mul; now rewrite HP). rewrite E.
    eapply wp_mono; [apply (wp_ce_mul_const J K L8 md s S1 (mkE x y) bits bs); auto|].
    { apply (bits_first Hp s (mkst U 0) S1 c); auto. rewrite Lb. exact Hn2. }
    { intros Hm. apply (Ebs Hm). }
    cbv beta. intros S2 R _ [GR [ER _]]. split; [now apply good_coords|]. split; [|auto].
    intros Hm. destruct (Ebs Hm) as [Ebs1 Ebs2].
    assert (RB : (0 <= bval bs < 2 ^ Z.of_nat n)%Z) by (rewrite <- Lbs; apply bval_range).
    assert (PB : (2 ^ Z.of_nat n <= Zpos p)%Z).
    { transitivity (2 ^ (Z.of_nat (num_bits p) - 1))%Z; [apply Z.pow_le_mono_r; lia|apply num_bits_lower]. }
    assert (VS : nval (ceval s c) = bval bs) by (rewrite Ebs2; apply nval_num_small; lia).
    rewrite VS. split; [lia|]. apply (ER Hm).
Qed.

(* C42 *)
(** The zero point: the result is the constant zero whatever the bits. *)
Lemma claim_C42_zero_base : forall (p l : positive) (J : JubJub p l) (P : CPoint p) (bits : list (CBool p)), Prime p ->
  cp_as_const P = Some (0, 1) -> ce_mul J P bits = Ret (cp_from_const 0 1).
Proof.
  intros p l J P bits Hp HP. unfold ce_mul. rewrite HP. unfold ce_mul_const, x_is_zero, e_into_extended. cbn [ex ey xx xy xz].
  rewrite (proj2 (nis_zero_eq (0 : Num p)) eq_refl), neqb_refl. reflexivity.
Qed.

(* C43 *)
Lemma claim_C43_from_scalar : forall (p l : positive) (J : JubJub p l) (sqrt : Num p -> option (Num p)) (U : list Index) (t : CNum p), jubjub_ok J ->
  (4 <= num_bits p)%nat -> (forall a, match sqrt a with Some b => b * b = a | None => ~ is_square a end) ->
  In I0 U -> owned U t -> as_const t = None ->
  let m := ce_from_scalar sqrt J t in
  sound_for U m (fun s R => ceval s t <> - (1) /\ from_scalar sqrt J (ceval s t) = Ok (cpe s R)) /\
  complete_for U m (fun s => Forall (valued s) [t] /\ ceval s t <> - (1))
    (fun s R => Forall (valued s) (coords R) /\ ceval s t <> - (1) /\ from_scalar sqrt J (ceval s t) = Ok (cpe s R)) /\
  (Forall blank [t] -> synth_for U m (fun k n R => Forall blank (coords R) /\ k = @fs_vars p /\ n = @fs_cons p)).
Proof.
  intros p l J sqrt U t K P4 Hs H0 Ho Hn m. pose proof (j_p _ K) as Hp. pose proof (j_m1 _ K) as Hm1. pose proof (j_d _ K) as Hd.
  pose proof (j_mont _ K) as HM. pose proof (j_u _ K) as Hu.
  apply wp_gadgetH; auto.
  - intros s s' E. now rewrite (ceval_ext_owned U t s s' Ho E).
  - intros md s HS G HP. rewrite Forall_cons_iff in G. destruct G as [Gt _].
    eapply wp_mono; [apply (wp_ce_from_scalar J K P4 sqrt Hs md s (mkst U 0) t); auto|].
    { intros Hm. apply (t1_neq _ Hp), (HP Hm). }
    cbv beta. intros S1 R _ [GR [ER [_ [_ B]]]]. split; [now apply good_coords|]. split.
    + intros Hm. destruct (ER Hm) as [N [M [FM EM]]]. split.
      { intros X. apply N. rewrite X. apply (m1_plus1 Hp). }
      unfold from_scalar. destruct (from_scalar_raw_ok Hp _ _ _ Hm1 Hd HM _ Hu sqrt Hs (ceval s t) N) as [M' [FM' ->]].
      rewrite EM, (fs_point_unique Hp _ _ _ Hm1 Hd HM _ Hu _ M M' FM FM'). reflexivity.
    + intros k Hk. exact (bump_count U S1 _ _ B k Hk).
Qed.

(* C44 *)
Lemma claim_C44_verify : forall (p l : positive) (J : JubJub p l) (P : @PoseidonParams p) (sqrt : Num p -> option (Num p)) (U : list Index) (sg r a m : CNum p),
  jubjub_ok J -> (8 < Zpos l)%Z -> (num_bits l < num_bits p)%nat -> full_bytes p = true -> full_bytes l = true ->
  (forall a, match sqrt a with Some b => b * b = a | None => ~ is_square a end) ->
  pp_ok P -> Forall (fun row => nth 0 row 0 <> 0) (ppm P) -> (2 <= ppf P)%nat -> (4 <= ppt P)%nat ->
  In I0 U -> Forall (owned U) [sg; r; a; m] -> Forall (fun c => as_const c = None) [sg; r; a; m] ->
  let dec s c := exists Q, insub J Q /\ ex Q = ceval s c in
  let res s out := (nval (ceval s sg) < 2 ^ Z.of_nat (num_bits l))%Z /\ dec s a /\ dec s r /\
    exists b, eddsaposeidon_verify P sqrt J (num (nval (ceval s sg)) : Num l) (ceval s r) (ceval s a) (ceval s m) = Ok b /\
              ceval s out = nbool b in
  let g := c_eddsaposeidon_verify sqrt P J sg r a m in
  sound_for U g res /\
  complete_for U g (fun s => Forall (valued s) [sg; r; a; m] /\ (nval (ceval s sg) < 2 ^ Z.of_nat (num_bits l))%Z /\ dec s a /\ dec s r)
    (fun s out => Forall (valued s) [out] /\ res s out) /\
  (Forall blank [sg; r; a; m] -> synth_for U g (fun _ _ out => Forall blank [out] /\ True)).
Proof.
  intros p l J P sqrt U sg r a m K L8 LB Hf Hf' Hs HP HP0 HPf HPt H0 Ho Hn dec res g.
  pose proof (j_p _ K) as Hp. pose proof (j_m1 _ K) as Hm1. pose proof (j_d _ K) as Hd. pose proof (edwards_group Hp _ Hm1 Hd) as EG.
  apply (wp_gadgetH U [sg; r; a; m] g (fun s => (nval (ceval s sg) < 2 ^ Z.of_nat (num_bits l))%Z /\ dec s a /\ dec s r) res (fun out => [out]) (fun _ _ _ => True)); auto.
  - rewrite !Forall_cons_iff in Ho. destruct Ho as [O1 [O2 [O3 [O4 _]]]]. unfold dec. intros s s' E.
    now rewrite (ceval_ext_owned U sg s s' O1 E), (ceval_ext_owned U r s s' O2 E), (ceval_ext_owned U a s s' O3 E).
  - intros md s HS G HB. rewrite !Forall_cons_iff in G, Hn. destruct G as [G1 [G2 [G3 [G4 _]]]], Hn as [N1 [N2 [N3 [N4 _]]]].
    eapply wp_mono; [apply (wp_eddsa J K L8 LB sqrt Hs P HP HP0 HPf HPt Hf md s (mkst U 0) sg r a m); auto|].
    cbv beta. intros S1 out _ [Go [No [Eo _]]]. split; [now constructor|]. split; [|auto].
    intros Hm. destruct (Eo Hm) as [Rs [A [R [h [b [SA [EA [SR [ER [Eh [Eb Hb]]]]]]]]]]]. split; auto.
    split; [now exists A|]. split; [now exists R|].
    destruct (verify_with_ok J K sqrt Hs ltac:(now rewrite Hf, Hf') (hash_ram P) (num (nval (ceval s sg))) (ceval s r) (ceval s a) (ceval s m) h Eh) as [b' [Eb' Hb']].
    exists b'. split; [exact Eb'|]. rewrite Eb. f_equal.
    assert (X : b = true <-> b' = true).
    { rewrite Hb, Hb'. assert (Y : emul (jd J) (nval (num (nval (ceval s sg)) : Num l)) (jg J) = emul (jd J) (nval (ceval s sg)) (jg J)).
      { apply (zmul_congr EG (Zpos l)); [apply (j_g _ K)|apply (j_gl _ K)|]. rewrite nval_num. apply Zmod_mod. }
      rewrite Y. split.
      - intros Z. exists A, R. destruct SA, SR. auto 10.
      - intros [A' [R' [A1 [A2 [A3 [R1 [R2 [R3 Z]]]]]]]].
        assert (A' = A) as <- by (apply (sub_x_inj J K); auto; [now split|congruence]).
        assert (R' = R) as <- by (apply (sub_x_inj J K); auto; [now split|congruence]). exact Z. }
    destruct b, b'; auto; [symmetry|]; tauto.
Qed.

(* C45 *)
(** Whether a signature is accepted depends on s mod l only. *)
Lemma claim_C45_malleable : forall (p l : positive) (J : JubJub p l) (P : @PoseidonParams p) (sqrt : Num p -> option (Num p)) (U : list Index) (sg r a m : CNum p) s s' tr tr' out out',
  jubjub_ok J -> (8 < Zpos l)%Z -> (num_bits l < num_bits p)%nat -> full_bytes p = true -> full_bytes l = true ->
  (forall a, match sqrt a with Some b => b * b = a | None => ~ is_square a end) ->
  pp_ok P -> Forall (fun row => nth 0 row 0 <> 0) (ppm P) -> (2 <= ppf P)%nat -> (4 <= ppt P)%nat ->
  In I0 U -> Forall (owned U) [sg; r; a; m] -> Forall (fun c => as_const c = None) [sg; r; a; m] ->
  let g := c_eddsaposeidon_verify sqrt P J sg r a m in
  s I0 = 1 -> s' I0 = 1 -> exec U g tr (Some out) -> sat s tr -> exec U g tr' (Some out') -> sat s' tr' ->
  ceval s r = ceval s' r -> ceval s a = ceval s' a -> ceval s m = ceval s' m ->
  (nval (ceval s sg) mod Zpos l = nval (ceval s' sg) mod Zpos l)%Z -> ceval s out = ceval s' out'.
Proof.
  intros p l J P sqrt U sg r a m s s' tr tr' out out' K L8 LB Hf Hf' Hs HP HP0 HPf HPt H0 Ho Hn g H1 H1' He Hsat He' Hsat' Er Ea Em Es.
  destruct (claim_C44_verify p l J P sqrt U sg r a m K L8 LB Hf Hf' Hs HP HP0 HPf HPt H0 Ho Hn) as [A _].
  destruct (A s tr out H1 He Hsat) as [_ [_ [_ [b [Eb Ob]]]]]. destruct (A s' tr' out' H1' He' Hsat') as [_ [_ [_ [b' [Eb' Ob']]]]].
  rewrite Ob, Ob'. f_equal. rewrite Er, Ea, Em in Eb.
  replace (num (nval (ceval s' sg)) : Num l) with (num (nval (ceval s sg)) : Num l) in Eb' by (apply num_eq_mod; exact Es). congruence.
Qed.

(** ** Runs *)
Section Cases.
Definition v73 (k : nat) (z : Z) : CNum 73 := cvar (Some (num z)) (Aux k).
Definition p73 (k : nat) (x y : Z) : CPoint 73 := mkP (v73 k x) (v73 (S k) y).
Definition e73 (x y : Z) : EPoint 73 := mkE (num x) (num y).
End Cases.
Ltac demo_pt := match goal with |- demo _ _ (fun s r => cpe s r = ?P) =>
  apply (demob_ok _ _ _ (fun s r => e_eqb (cpe s r) P)); [intros s r; apply e_eqb_eq|vm_compute; reflexivity] end.
Ltac demo_npt := match goal with |- demo _ _ (fun s r => cpe s r <> ?P) =>
  apply (demob_ok _ _ _ (fun s r => negb (e_eqb (cpe s r) P))); [intros s r; rewrite Bool.negb_true_iff; intros X Y; apply e_eqb_eq in Y; congruence|vm_compute; reflexivity] end.
Ltac demo_any := apply (demob_ok _ _ _ (fun _ _ => true)); [auto|vm_compute; reflexivity].
Ltac insub73 := split; [apply e_is_in_curve_iff; vm_compute; reflexivity|apply e_eqb_eq; vm_compute; reflexivity].

Lemma case_C37_add : jubjub_ok toy2 /\ on_curve (jd toy2) (e73 1 56) /\ on_curve (jd toy2) (e73 19 68) /\
  demo [num 1; num 56; num 19; num 68] (ce_add (jd toy2) (p73 0 1 56) (p73 2 19 68)) (fun s R => cpe s R = eadd (jd toy2) (e73 1 56) (e73 19 68)) /\
  ncons (fst (run 4 (ce_add (jd toy2) (p73 0 1 56) (p73 2 19 68)))) = 6%nat.
Proof.
  split; [exact toy2_ok|]. split; [apply e_is_in_curve_iff; vm_compute; reflexivity|]. split; [apply e_is_in_curve_iff; vm_compute; reflexivity|].
  split; [|vm_compute; reflexivity]. demo_pt.
Qed.
Lemma case_C37_double : demo [num 1; num 56] (ce_double (jd toy2) (p73 0 1 56)) (fun s R => cpe s R = emul (jd toy2) 2 (e73 1 56)).
Proof. demo_pt. Qed.
Lemma case_C37_cofactor : demo [num 1; num 56] (ce_mul_by_cofactor (jd toy2) (p73 0 1 56)) (fun s R => cpe s R = emul (jd toy2) 8 (e73 1 56)).
Proof. demo_pt. Qed.
Lemma case_C38_in_curve : demo [num 1; num 56] (ce_assert_in_curve (jd toy2) (p73 0 1 56)) (fun _ _ => True).
Proof. demo_any. Qed.
Lemma case_C38_in_subgroup : insub toy2 (e73 1 56) /\ demo [num 1; num 56] (ce_assert_in_subgroup 11 (jd toy2) (p73 0 1 56)) (fun _ _ => True) /\
  ncons (fst (run 2 (ce_assert_in_subgroup 11 (jd toy2) (p73 0 1 56)))) = 20%nat.
Proof. split; [insub73|]. split; [demo_any|vm_compute; reflexivity]. Qed.
(** A point of the curve outside the subgroup: the honest values do not satisfy
    the constraints (no values do, by the theorem). *)
Lemma case_C38_subgroup_meaning : on_curve (jd toy2) (e73 0 72) /\ ~ insub toy2 (e73 0 72).
Proof.
  split; [apply e_is_in_curve_iff; vm_compute; reflexivity|]. intros [_ E]. apply e_eqb_eq in E. vm_compute in E. discriminate.
Qed.
Lemma case_C39_decompress : demo [num 19] (ce_subgroup_decompress sqrt_search toy2 (v73 0 19)) (fun s R => cpe s R = e73 19 68).
Proof. demo_pt. Qed.
Lemma case_C39_unsatisfiable : match subgroup_decompress sqrt_search 11 (jd toy2) (num 2 : Num 73) with Ok None => true | _ => false end = true.
Proof. vm_compute. reflexivity. Qed.
Lemma case_C40_mul : insub toy2 (e73 1 56) /\
  demo [num 1; num 56; num 1; num 0; num 1] (ce_mul toy2 (p73 0 1 56) [v73 2 1; v73 3 0; v73 4 1]) (fun s R => cpe s R = emul (jd toy2) 5 (e73 1 56)) /\
  demo [num 0; num 1; num 1; num 0; num 1] (ce_mul toy2 (p73 0 0 1) [v73 2 1; v73 3 0; v73 4 1]) (fun s R => cpe s R = e73 0 1) /\
  ncons (fst (run 5 (ce_mul toy2 (p73 0 1 56) [v73 2 1; v73 3 0; v73 4 1]))) = 37%nat.
Proof. split; [insub73|]. split; [demo_pt|]. split; [demo_pt|vm_compute; reflexivity]. Qed.
Lemma case_C41_mul : insub toy2 (e73 1 56) /\
  demo [num 1; num 0; num 1; num 1] (ce_mul toy2 (cp_from_const (num 1) (num 56)) [v73 0 1; v73 1 0; v73 2 1; v73 3 1]) (fun s R => cpe s R = emul (jd toy2) 13 (e73 1 56)).
Proof. split; [insub73|]. demo_pt. Qed.
Lemma case_C41_number : demo [num 7] (bits <-- c_into_bits_le (v73 0 7) 4 ;; ce_mul toy2 (cp_from_const (num 1) (num 56)) bits) (fun s R => cpe s R = emul (jd toy2) 7 (e73 1 56)).
Proof. demo_pt. Qed.
Lemma case_C43_from_scalar : demo [num 3] (ce_from_scalar sqrt_search toy2 (v73 0 3)) (fun s R => cpe s R = match from_scalar sqrt_search toy2 (num 3) with Ok P => P | Panic => e73 0 1 end) /\
  match from_scalar sqrt_search toy2 (num 3) with Ok P => negb (e_is_zero P) | Panic => false end = true.
Proof. split; [demo_pt|vm_compute; reflexivity]. Qed.

(* C41, C42: what goes wrong *)
(** One bit only: a run on non-constant input, with the constraints satisfied
    and a wrong result. *)
Lemma claim_C41_one_bit_refuted : exists (p l : positive) (J : JubJub p l) (c : EPoint p) (bit : CBool p) (v : bool),
  jubjub_ok J /\ (8 < Zpos l)%Z /\ insub J c /\ as_const bit = None /\
  demo [nbool v] (ce_mul J (cp_from_const (ex c) (ey c)) [bit]) (fun s R => ceval s bit = nbool v /\ cpe s R <> emul (jd J) (bval [v]) c).
Proof.
  exists 73%positive, 11%positive, toy2, (e73 19 68), (v73 0 1), true.
  split; [exact toy2_ok|]. split; [reflexivity|]. split; [insub73|]. split; [reflexivity|].
  apply (demob_ok _ _ _ (fun s r => neqb (ceval s (v73 0 1)) (nbool true) && negb (e_eqb (cpe s r) (emul (jd toy2) (bval [true]) (e73 19 68))))).
  - intros s r. rewrite Bool.andb_true_iff, Bool.negb_true_iff. intros [X Y]. split; [now apply neqb_eq|].
    intros Z. apply e_eqb_eq in Z. congruence.
  - vm_compute. reflexivity.
Qed.
Lemma claim_C42_const_bits_refuted : exists (p l : positive) (J : JubJub p l) (c : EPoint p) (bs : list bool),
  jubjub_ok J /\ insub J c /\ length bs = 4%nat /\
  demo [] (ce_mul J (cp_from_const (ex c) (ey c)) (map cbconst bs)) (fun s R => cpe s R <> emul (jd J) (bval bs) c).
Proof.
  exists 73%positive, 11%positive, toy2, (e73 1 56), [true; false; true; true].
  split; [exact toy2_ok|]. split; [insub73|]. split; [reflexivity|]. demo_npt.
Qed.
(** An empty bit slice: a constant base other than zero panics. *)
Lemma claim_C42_empty_panics : forall (p l : positive) (J : JubJub p l) (P : CPoint p) (x y : Num p), jubjub_ok J ->
  cp_as_const P = Some (x, y) -> insub J (mkE x y) -> mkE x y <> mkE 0 1 -> ce_mul J P [] = PPanic.
Proof.
  intros p l J P x y K HP Hc Hn. pose proof (j_p _ K) as Hp. pose proof (j_m1 _ K) as Hm1. pose proof (j_d _ K) as Hd.
  unfold ce_mul. rewrite HP. unfold ce_mul_const.
  destruct (e_into_extended_ok Hp _ Hm1 Hd (mkE x y) (proj1 Hc)) as [HX EX].
  destruct (x_is_zero (e_into_extended (mkE x y))) eqn:Ez.
  { exfalso. apply Hn. apply (x_is_zero_iff Hp _ Hm1 Hd) in Ez; [|apply HX]. rewrite EX in Ez. exact Ez. }
  cbv zeta. cbn [length]. change (3 - 0 mod 3)%nat with 3%nat. change (3 mod 3)%nat with 0%nat. cbn [repeat app length]. change (0 / 3)%nat with 0%nat.
  cbn [start_loop windows_loop].
  assert (O : on_curve (jd J) (mkE 0 (- (1)))) by exact (onc_T2 Hp (jd J) Hm1 Hd).
  destruct (e_into_extended_ok Hp _ Hm1 Hd _ O) as [X1 E1]. destruct (x_negate_ok Hp _ Hm1 Hd _ X1) as [X2 E2].
  assert (M : x_into_montgomery (x_negate (e_into_extended (mkE (0 : Num p) (- (1))))) = Ok (Some (mkM 0 0))).
  { unfold x_into_montgomery. rewrite (x_into_affine_ok Hp _ Hm1 Hd) by apply X2. cbn [rbind]. rewrite E2, E1. unfold e_into_montgomery, eneg. cbn [ex ey].
    replace (- (0 : Num p)) with (0 : Num p) by (apply (nneg_0 Hp)). rewrite (proj2 (nis_zero_eq (0 : Num p)) eq_refl).
    rewrite (proj2 (neqb_neq _ _) (m1_neq_1 Hp _ Hm1 Hd)). reflexivity. }
  rewrite M. cbn [plift pbind unwrap mx my cm_into_edwards cp_from_const px py].
  unfold cm_into_edwards, cis_zero. cbn [cp_from_const px py as_const cconst clc ieqb]. cbn [pbind].
  unfold cdiv at 1. cbn [as_const cconst clc ieqb]. 
  reflexivity.
Qed.

(** The circuit run on given values. *)
Definition eddsa_gadget {p l} sqrt (P : @PoseidonParams p) (J : JubJub p l) (s r a m : Num p) : prog p (CBool p) :=
  c_eddsaposeidon_verify sqrt P J (cvar (Some s) (Aux 0)) (cvar (Some r) (Aux 1)) (cvar (Some a) (Aux 2)) (cvar (Some m) (Aux 3)).
Lemma claim_C44_every_input : forall (p l : positive) (J : JubJub p l) (P : @PoseidonParams p) (sqrt : Num p -> option (Num p)) (s r a m : Num p),
  jubjub_ok J -> (8 < Zpos l)%Z -> (num_bits l < num_bits p)%nat -> full_bytes p = true -> full_bytes l = true ->
  (forall a, match sqrt a with Some b => b * b = a | None => ~ is_square a end) ->
  pp_ok P -> Forall (fun row => nth 0 row 0 <> 0) (ppm P) -> (2 <= ppf P)%nat -> (4 <= ppt P)%nat ->
  (nval s < 2 ^ Z.of_nat (num_bits l))%Z -> (exists Q, insub J Q /\ ex Q = a) -> (exists Q, insub J Q /\ ex Q = r) ->
  exists b, eddsaposeidon_verify P sqrt J (num (nval s) : Num l) r a m = Ok b /\
    demo [s; r; a; m] (eddsa_gadget sqrt P J s r a m) (fun w out => ceval w out = nbool b).
Proof.
  intros p l J P sqrt s r a m K L8 LB Hf Hf' Hs HP HP0 HPf HPt Hb Ha Hr. pose proof (j_p _ K) as Hp.
  set (U := I0 :: map Aux (seq 0 4)).
  set (cs := cvar (Some s) (Aux 0)). set (cr := cvar (Some r) (Aux 1)). set (ca := cvar (Some a) (Aux 2)). set (cm := cvar (Some m) (Aux 3)).
  assert (Hv : forall (v : Num p) i, In i U -> owned U (cvar (Some v) i)).
  { intros v i Hi. apply (wf_var (prime_gt1 Hp) (mkst U 0)); exact Hi. }
  assert (Ho : Forall (owned U) [cs; cr; ca; cm]).
  { repeat (apply Forall_cons; [apply Hv; cbn; auto 10|]). apply Forall_nil. }
  assert (Hn : Forall (fun c => as_const c = None) [cs; cr; ca; cm]) by (repeat constructor).
  destruct (claim_C44_verify p l J P sqrt U cs cr ca cm K L8 LB Hf Hf' Hs HP HP0 HPf HPt ltac:(now left) Ho Hn) as [_ [C _]].
  set (g := eddsa_gadget sqrt P J s r a m). set (ls := [s; r; a; m]).
  assert (He : exec U g (fst (run 4 g)) (snd (run 4 g))).
  { apply run_exec. apply Forall_cons; [exact I|]. rewrite Forall_map. apply Forall_forall. intros k Hk. apply in_seq in Hk. cbn. lia. }
  assert (Ev : forall w (v : Num p) i, ceval w (cvar (Some v) i) = w i) by (intros; apply ceval_var).
  destruct (C (assign ls) (fst (run 4 g)) (snd (run 4 g)) eq_refl) as [w [out [X1 [X2 [X3 [X4 [_ X5]]]]]]]; [|exact He|].
  { unfold valued. rewrite !Forall_cons_iff. unfold cs, cr, ca, cm. rewrite !Ev. cbn [cvalue cvar assign nth ls].
    split; [repeat (split; [reflexivity|]); apply Forall_nil|]. auto. }
  destruct X5 as [_ [_ [_ [b [Eb Ob]]]]]. unfold cs, cr, ca, cm in Eb. rewrite !Ev in Eb.
  assert (W : forall k, (k < 4)%nat -> w (Aux k) = nth k ls 0).
  { intros k Hk. rewrite X1; [reflexivity|]. right. apply in_map, in_seq. lia. }
  rewrite !W in Eb by lia. cbn [nth ls] in Eb. exists b. split; [exact Eb|].
  exists (fst (run 4 g)), out, w. split; [rewrite <- X4; exact He|]. split; [rewrite X1 by (now left); reflexivity|]. split; [exact W|]. auto.
Qed.
Lemma pp4_more : pp_ok (@pp4 bn_r) /\ Forall (fun row => nth 0 row 0 <> 0) (ppm (@pp4 bn_r)) /\ (2 <= ppf (@pp4 bn_r))%nat /\ (4 <= ppt (@pp4 bn_r))%nat.
Proof.
  split; [apply pp4_ok|]. split; [|split; [cbn; lia|apply pp4_ok]]. cbn [ppm pp4].
  repeat (apply Forall_cons; [apply neqb_neq; vm_compute; reflexivity|]). apply Forall_nil.
Qed.
(** On the bn256 curve: a signature the library makes is accepted by the
    circuit; with another scalar the circuit still has a run, and rejects. *)
Lemma case_C44_every_input : exists (J : JubJub bn_r bn_l) (s : Num bn_l) (r a : Num bn_r),
  let sqrt := sqrt_search in
  demo [num (nval s); r; a; num 1] (eddsa_gadget sqrt pp4 J (num (nval s)) r a (num 1)) (fun w out => ceval w out = 1) /\
  demo [num (nval (s + 1)); r; a; num 1] (eddsa_gadget sqrt pp4 J (num (nval (s + 1))) r a (num 1)) (fun w out => ceval w out = 0).
Proof.
  destruct jubjub_bn_ok as [J [K _]]. destruct pp4_more as [HP [HP0 [HPf HPt]]].
  assert (F1 : full_bytes bn_r = true) by (vm_compute; reflexivity). assert (F2 : full_bytes bn_l = true) by (vm_compute; reflexivity).
  assert (L8 : (8 < Zpos bn_l)%Z) by reflexivity. assert (LB : (num_bits bn_l < num_bits bn_r)%nat) by (vm_compute; lia).
  destruct (claim_C35_sign_verify _ _ J pp4 sqrt_search (num 2) (num 1) K (sqrt_search_ok _) F1 F2 HP HPt) as [s [r [A [_ [_ V]]]]].
  exists J, s, r, (ex A). cbv zeta.
  destruct (claim_C36_verify_equation _ _ J pp4 sqrt_search s r (ex A) (num 1) K (sqrt_search_ok _) F1 F2 HP HPt) as [salt [h [b [_ [_ [E Hb]]]]]].
  assert (b = true) as -> by congruence. destruct (proj1 Hb eq_refl) as [A' [R' [A1 [A2 [A3 [R1 [R2 [R3 _]]]]]]]].
  assert (DA : exists Q, insub J Q /\ ex Q = ex A) by (exists A'; split; auto; now split).
  assert (DR : exists Q, insub J Q /\ ex Q = r) by (exists R'; split; auto; now split).
  assert (B : forall t : Num bn_l, nval (num (nval t) : Num bn_r) = nval t /\ (nval t < 2 ^ Z.of_nat (num_bits bn_l))%Z).
  { intros t. pose proof (nval_range t). split; [apply nval_num_small; unfold bn_l, bn_r in *; lia|]. pose proof (num_bits_upper bn_l). lia. }
  assert (Q : forall t : Num bn_l, exists b, eddsaposeidon_verify pp4 sqrt_search J t r (ex A) (num 1) = Ok b /\
    demo [num (nval t); r; ex A; num 1] (eddsa_gadget sqrt_search pp4 J (num (nval t)) r (ex A) (num 1)) (fun w out => ceval w out = nbool b)).
  { intros t. destruct (B t) as [B1 B2].
    destruct (claim_C44_every_input _ _ J pp4 sqrt_search (num (nval t)) r (ex A) (num 1) K L8 LB F1 F2 (sqrt_search_ok _) HP HP0 HPf HPt) as [b [X Y]]; auto.
    { now rewrite B1. }
    exists b. split; auto. rewrite B1, num_nval in X. exact X. }
  split.
  - destruct (Q s) as [b [X Y]]. assert (b = true) as -> by congruence. exact Y.
  - destruct (Q (s + 1)) as [b [X Y]]. assert (b = false) as ->; [|exact Y].
    destruct b; auto. exfalso.
    assert (Z : s + 1 = s) by (apply (claim_C36_unique_scalar _ _ J pp4 sqrt_search (s + 1) s r (ex A) (num 1) K (sqrt_search_ok _) F1 F2 HP HPt); auto).
    exact (plus1_neq (j_l _ K) s Z).
Qed.
(** Both s and s + l are accepted (on the bn256 curve). *)
Lemma claim_C45_canonical_s_refuted : exists (J : JubJub bn_r bn_l) (P : @PoseidonParams bn_r) (sqrt : Num bn_r -> option (Num bn_r)) (s s' r a m : Num bn_r),
  jubjub_bn sqrt = Ok J /\ (forall a, match sqrt a with Some b => b * b = a | None => ~ is_square a end) /\
  (nval s < Zpos bn_l)%Z /\ nval s' = (nval s + Zpos bn_l)%Z /\
  demo [s; r; a; m] (eddsa_gadget sqrt P J s r a m) (fun w out => ceval w out = 1) /\
  demo [s'; r; a; m] (eddsa_gadget sqrt P J s' r a m) (fun w out => ceval w out = 1).
Proof.
  destruct jubjub_bn_ok as [J [K [_ [_ [_ [_ EJ]]]]]]. destruct pp4_more as [HP [HP0 [HPf HPt]]].
  assert (F1 : full_bytes bn_r = true) by (vm_compute; reflexivity). assert (F2 : full_bytes bn_l = true) by (vm_compute; reflexivity).
  assert (L8 : (8 < Zpos bn_l)%Z) by reflexivity. assert (LB : (num_bits bn_l < num_bits bn_r)%nat) by (vm_compute; lia).
  pose proof (j_p _ K) as Hp. pose proof (j_m1 _ K) as Hm1. pose proof (j_d _ K) as Hd.
  pose proof (edwards_group Hp _ Hm1 Hd) as EG.
  exists J, pp4, sqrt_search, 0, (num (Zpos bn_l)), 0, 0, 0.
  assert (N0 : nval (0 : Num bn_r) = 0%Z) by (vm_compute; reflexivity).
  assert (N1 : nval (num (Zpos bn_l) : Num bn_r) = Zpos bn_l) by (vm_compute; reflexivity).
  split; [apply EJ, sqrt_search_ok|]. split; [apply sqrt_search_ok|]. split; [rewrite N0; reflexivity|]. split; [rewrite N0, N1; reflexivity|].
  assert (Z0 : insub J (mkE 0 1)) by exact (sub_zero J K).
  assert (D : exists Q, insub J Q /\ ex Q = 0) by (exists (mkE 0 1); split; auto).
  assert (G : forall t : Num bn_r, (nval t < 2 ^ Z.of_nat (num_bits bn_l))%Z -> (nval t mod Zpos bn_l = 0)%Z ->
    demo [t; 0; 0; 0] (eddsa_gadget sqrt_search pp4 J t 0 0 0) (fun w out => ceval w out = 1)).
  { intros t Ht Hm.
    destruct (claim_C44_every_input _ _ J pp4 sqrt_search t 0 0 0 K L8 LB F1 F2 (sqrt_search_ok _) HP HP0 HPf HPt Ht D D) as [b [X Y]].
    destruct (claim_C36_verify_equation _ _ J pp4 sqrt_search (num (nval t)) 0 0 0 K (sqrt_search_ok _) F1 F2 HP HPt) as [salt [h [b' [_ [_ [E Hb]]]]]].
    assert (b' = b) as -> by congruence. assert (b = true) as ->; [|exact Y]. apply Hb.
    exists (mkE 0 1), (mkE 0 1). destruct Z0 as [Z1 Z2]. repeat (split; [assumption || reflexivity|]).
    rewrite nval_num, Hm. change (mkE (0 : Num bn_r) 1) with (@e_zero bn_r).
    transitivity (@e_zero bn_r); [reflexivity|]. symmetry. 
    transitivity (eadd (jd J) (@e_zero bn_r) e_zero); [f_equal; exact (zmul_zero EG (nval h))|]. apply (gadd0r EG). exact (proj1 (sub_zero J K)). }
  split; apply G; rewrite ?N0, ?N1; try reflexivity.
Qed.

(* C61 *)
(** Variable base; [9 n + 10] constraints for [n] non-constant bits: 2296 for 254 bits. *)
Lemma claim_C61_ecmul_count : forall (p l : positive) (J : JubJub p l) (U : list Index) (P : CPoint p) (bits : list (CBool p)), jubjub_ok J ->
  In I0 U -> Forall (owned U) (coords P ++ bits) -> Forall (fun c => as_const c = None) (coords P ++ bits) -> bits <> [] ->
  Forall blank (coords P ++ bits) ->
  synth_for U (ce_mul J P bits) (fun _ n _ => n = (9 * length bits + 10)%nat /\ (length bits = 254%nat -> n = 2296%nat)).
Proof.
  intros p l J U P bits K H0 Ho Hn Hb HB. apply Forall_app in Hn. destruct Hn as [Hn Hn'].
  destruct (claim_C40_mul p l J U P bits [] K H0 Ho Hn) as [_ [_ A]].
  - destruct bits as [|b bits]; [congruence|]. left. rewrite Forall_cons_iff in Hn'. destruct Hn' as [X _]. congruence.
  - eapply Forall_impl; [|exact Hn']. intros b X v Y. congruence.
  - intros tr o He. destruct (A HB tr o He) as [R [E [_ X]]]. exists R. split; auto. destruct (X Hn') as [_ Y]. split; [exact Y|].
    intros L. rewrite Y. change (@length (CNum p) bits) with (@length (CBool p) bits). rewrite L. reflexivity.
Qed.
(** Constant base, bits that are distinct variables. A window is regular when
    neither row of its table of multiples splits into two halves that differ by a
    constant; an irregular window costs less. 513 for 254 bits. *)
Lemma claim_C61_ecmul_const_count : forall (p l : positive) (J : JubJub p l) (U : list Index) (P : CPoint p) (x y : Num p) (bits : list (CBool p)) (ids : list Index), jubjub_ok J -> (8 < Zpos l)%Z ->
  In I0 U -> Forall (owned U) bits -> Forall2 (fun b i => clc b = [(i, 1)]) bits ids -> NoDup ids -> ~ In I0 ids -> (2 <= length bits)%nat ->
  Forall blank bits -> cp_as_const P = Some (x, y) -> insub J (mkE x y) -> mkE x y <> mkE 0 1 ->
  synth_for U (ce_mul J P bits) (fun _ n _ => (n <= 6 * ((length bits + 2) / 3) + 5)%nat /\
    ((forall i, (i < (length bits + 2) / 3)%nat -> wnd J (emul (jd J) (8 ^ Z.of_nat i) (mkE x y))) ->
     (n + wshort (padding (length bits)) = 6 * ((length bits + 2) / 3) + 5)%nat /\ (length bits = 254%nat -> n = 513%nat))).
Proof.
  intros p l J U P x y bits ids K L8 H0 Ho H2 Hd Hi Hl HB HP Hc Hz. pose proof (j_p _ K) as Hp.
  assert (IV : isvs bits ids) by (split; [exact H2|split; auto]).
  assert (E : ce_mul J P bits = ce_mul_const J (mkE x y) bits) by (unfold ce_mul; now rewrite HP). rewrite E.
  assert (PM : (padding (length bits) <= 2)%nat).
  { unfold padding. pose proof (Nat.mod_upper_bound (3 - length bits mod 3) 3 ltac:(lia)). lia. }
  assert (LN : (length bits + padding (length bits) = 3 * nwin (length bits))%nat).
  { destruct (padding_ok (length bits)) as [k Hk]. unfold nwin. rewrite Hk, Nat.mul_comm, Nat.div_mul; lia. }
  assert (W : nwin (length bits) = ((length bits + 2) / 3)%nat).
  { apply (Nat.div_unique (length bits + 2) 3 _ (2 - padding (length bits))); lia. }
  rewrite <- W. apply wp_synth_for; auto. intros s HS.
  eapply wp_mono; [apply (wp_ce_mul_const J K L8 Setup s (mkst U 0) (mkE x y) bits []); auto with claims; try congruence|].
  { exact (bfirst_vars Hp bits ids IV Hl). }
  cbv beta. intros S1 R _ [_ [_ [_ Z1]]] k Hk. destruct (Z1 Hz) as [_ [_ [B1 B2]]]. cbn [sn] in B2.
  split; [exact B2|]. intros HW.
  assert (N : Forall nonconst bits).
  { clear - IV Hp. revert ids IV. induction bits as [|b bits IH]; intros ids IV; constructor.
    - destruct (isvs_cons Hp b bits ids IV) as [i [ids' [_ [V [N _]]]]]. exact (isv_nc Hp b i V N).
    - destruct (isvs_cons Hp b bits ids IV) as [i [ids' [_ [_ [_ [_ V]]]]]]. exact (IH ids' V). }
  destruct (B1 (wreg_vars Hp _ bits ids _ IV LN PM) HW) as [_ B3]. cbn [sn] in B3.
  pose proof (wcost_val Hp _ bits _ N LN PM) as WC.
  assert (X : (sn S1 + wshort (padding (length bits)) = 6 * nwin (length bits) + 5)%nat).
  { rewrite B3. unfold wshort. set (w := wcost _ _) in *. clear - WC. destruct (padding (length bits)) as [|[|]]; lia. }
  split; [exact X|]. intros L. rewrite L in X. change (padding 254) with 1%nat in X. change (nwin 254) with 85%nat in X. cbn [wshort] in X. lia.
Qed.
(** The signature verifier. *)
Lemma claim_C61_eddsa_count : forall (p l : positive) (J : JubJub p l) (P : @PoseidonParams p) (sqrt : Num p -> option (Num p)) (U : list Index) (sg r a m : CNum p),
  jubjub_ok J -> (8 < Zpos l)%Z -> (num_bits l < num_bits p)%nat -> full_bytes p = true ->
  (forall a, match sqrt a with Some b => b * b = a | None => ~ is_square a end) ->
  pp_ok P -> Forall (fun row => nth 0 row 0 <> 0) (ppm P) -> (2 <= ppf P)%nat -> (4 <= ppt P)%nat ->
  In I0 U -> Forall (owned U) [sg; r; a; m] -> Forall (fun c => as_const c = None) [sg; r; a; m] -> Forall blank [sg; r; a; m] ->
  (forall i, (i < (num_bits l + 2) / 3)%nat -> wnd J (emul (jd J) (8 ^ Z.of_nat i) (jg J))) ->
  synth_for U (c_eddsaposeidon_verify sqrt P J sg r a m) (fun _ n _ => n = @eddsa_cons p l P /\
    (num_bits p = 254%nat -> num_bits l = 251%nat -> ppt P = 4%nat -> ppf P = 8%nat -> ppp P = 54%nat -> Z.of_nat n = 3866%Z)).
Proof.
  intros p l J P sqrt U sg r a m K L8 LB Hf Hs HP HP0 HPf HPt H0 Ho Hn HB HW.
  apply wp_synth_for; auto. intros s HS.
  rewrite !Forall_cons_iff in Ho, Hn, HB. destruct Ho as [O1 [O2 [O3 [O4 _]]]], Hn as [N1 [N2 [N3 [N4 _]]]], HB as [B1 [B2 [B3 [B4 _]]]].
  assert (W : nwin (num_bits l) = ((num_bits l + 2) / 3)%nat).
  { assert (PM : (padding (num_bits l) <= 2)%nat).
    { unfold padding. pose proof (Nat.mod_upper_bound (3 - num_bits l mod 3) 3 ltac:(lia)). lia. }
    destruct (padding_ok (num_bits l)) as [k Hk]. unfold nwin. rewrite Hk, Nat.mul_comm, Nat.div_mul by lia.
    apply (Nat.div_unique (num_bits l + 2) 3 _ (2 - padding (num_bits l))); lia. }
  eapply wp_mono; [apply (wp_eddsa J K L8 LB sqrt Hs P HP HP0 HPf HPt Hf Setup s (mkst U 0) sg r a m); auto with claims; congruence|].
  cbv beta. intros S1 out _ [_ [_ [_ C]]] k Hk. rewrite W in C. specialize (C HW). cbn [sn] in C. rewrite C. split; [reflexivity|].
  intros E1 E2 E3 E4 E5. unfold eddsa_cons, strict_cons, poseidon_cost. rewrite E1, E2, E3, E4, E5. vm_compute. reflexivity.
Qed.
Lemma case_C61_ecmul_count : ncons (fst (run 5 (ce_mul toy2 (p73 0 1 56) [v73 2 1; v73 3 0; v73 4 1]))) = 37%nat.
Proof. vm_compute. reflexivity. Qed.
Lemma case_C61_ecmul_const_count : ncons (fst (run 4 (ce_mul toy2 (cp_from_const (num 1) (num 56)) [v73 0 1; v73 1 0; v73 2 1; v73 3 1]))) = 14%nat.
Proof. vm_compute. reflexivity. Qed.
