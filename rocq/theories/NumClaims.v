(** Claims about CNum / CBool (circuit/num.rs, circuit/bool.rs). *)

From Verif Require Export Claims NumSpec Primality Run.
Open Scope num_scope.

(** Claims are stated for every prime modulus. *)
Notation Prime p := (prime (Zpos p)).

Lemma ceval_ext_owned {p} U (c : CNum p) s s' :
  owned U c -> (forall i, In i U -> s' i = s i) -> ceval s' c = ceval s c.
Proof. intros [_ H] E. apply leval_ext. intros k v Hin. apply E. eauto. Qed.
Lemma valued_ext {p} U (c : CNum p) s s' :
  owned U c -> (forall i, In i U -> s' i = s i) -> valued s c -> valued s' c.
Proof. intros Ho E Hv. unfold valued in *. now rewrite (ceval_ext_owned U c s s'). Qed.

Lemma good_sound {p} U n (c : CNum p) s : owned U c -> good Sound s (mkst U n) c.
Proof. intros H. split; [exact H|exact I]. Qed.
Lemma good_honest {p} U n (c : CNum p) s : owned U c -> valued s c -> good Honest s (mkst U n) c.
Proof. intros H H2. split; [exact H|exact H2]. Qed.
Lemma good_setup {p} U n (c : CNum p) s : owned U c -> blank c -> good Setup s (mkst U n) c.
Proof. intros H H2. split; [exact H|exact H2]. Qed.
#[export] Hint Resolve good_sound good_honest good_setup : claims.

Ltac mode_neq := match goal with |- ?a <> ?b => discriminate end.


Section PrimeClaims.
Variable p : positive.
Hypothesis Hp : Prime p.
Set Default Proof Using "Hp".
Notation F := (Num p).
Add Field nc_field : (num_field Hp) (morphism (@num_morph p), constants [num_cst], power_tac (@num_power p) [num_pow_cst]).

(* C01 *)
Lemma claim_C01_linear : forall (a b : CNum p) (k : Num p),
  (forall s, s I0 = n1 ->
     ceval s (cadd a b) = ceval s a + ceval s b /\ ceval s (cadd_cap a b) = ceval s a + ceval s b /\
     ceval s (cadd_rv a b) = ceval s a + ceval s b /\ ceval s (csub a b) = ceval s a - ceval s b /\
     ceval s (cneg a) = - ceval s a /\ ceval s (cadd_num a k) = ceval s a + k /\
     ceval s (csub_num a k) = ceval s a - k /\ ceval s (num_csub k a) = k - ceval s a /\
     ceval s (cmul_num a k) = ceval s a * k) /\
  (forall va vb, cvalue a = Some va -> cvalue b = Some vb ->
     cvalue (cadd a b) = Some (va + vb) /\ cvalue (cadd_cap a b) = Some (va + vb) /\
     cvalue (cadd_rv a b) = Some (va + vb) /\ cvalue (csub a b) = Some (va - vb) /\
     cvalue (cneg a) = Some (- va) /\ cvalue (cadd_num a k) = Some (va + k) /\
     cvalue (csub_num a k) = Some (va - k) /\ cvalue (num_csub k a) = Some (k - va) /\
     cvalue (cmul_num a k) = Some (va * k)) /\
  (k <> n0 -> exists r, cdiv_num a k = Ok r /\
     (forall s, ceval s r * k = ceval s a) /\
     (forall va, cvalue a = Some va -> exists vr, cvalue r = Some vr /\ vr * k = va)) /\
  (cvalue a <> None \/ clc a <> [] -> cdiv_num a n0 = Panic).
Proof.
  intros a b c. split; [|split; [|split]].
  - intros s H. rewrite ceval_add, ceval_add_cap, ceval_add_rv, ceval_sub, ceval_neg, ceval_mul_num.
    rewrite ceval_add_num, ceval_sub_num, ceval_num_sub by auto. repeat split; reflexivity.
  - intros va vb Ea Eb. unfold cadd_cap, cadd_rv, cadd_num, csub_num, num_csub. cbn [cadd csub cneg cconst cvalue].
    repeat split.
    + now rewrite Ea, Eb.
    + destruct Nat.leb; cbn [cadd cvalue]; rewrite Ea, Eb; cbn; [reflexivity|]. f_equal; ring.
    + rewrite Ea, Eb; cbn. f_equal; ring.
    + now rewrite Ea, Eb.
    + now rewrite Ea.
    + now rewrite Ea.
    + now rewrite Ea.
    + now rewrite Ea.
    + unfold cmul_num. destruct (nis_zero c) eqn:E.
      * apply nis_zero_eq in E. subst. cbn. f_equal; ring.
      * cbn. now rewrite Ea.
  - intros Hc. exists (cdivn a c). split; [now apply cdiv_num_ok|]. split.
    + intros s. rewrite (ceval_divn Hp) by auto. field; auto.
    + intros va Ea. cbn. rewrite Ea. cbn. eexists. split; [reflexivity|]. field; auto.
  - apply cdiv_num_zero.
Qed.

(* C03 *)
Lemma claim_C03_as_const_exact : forall (a : CNum p), canonical (clc a) ->
  (forall v, as_const a = Some v <-> (forall s, s I0 = n1 -> ceval s a = v)) /\
  (as_const a = None <-> exists s s', s I0 = n1 /\ s' I0 = n1 /\ ceval s a <> ceval s' a).
Proof.
  intros a Ha.
  assert (Hnc : as_const a = None -> exists s s', s I0 = n1 /\ s' I0 = n1 /\ ceval s a <> ceval s' a).
  { intros E. destruct (nonconst_coef a Ha E) as [i [Hi Hc]].
    pose (s := fun j => if ieqb j I0 then n1 else n0 : F).
    pose (s' := fun j => if ieqb j i then n1 else s j : F).
    exists s, s'. assert (H1 : s I0 = n1) by reflexivity.
    assert (H2 : s' I0 = n1) by (unfold s'; destruct (ieqb I0 i); auto).
    split; auto. split; auto. intros E2. apply Hc. rewrite ccoef_eval.
    assert (Hd : forall l : lcT p, leval s' l = leval s l + leval (unitv i) l).
    { induction l as [|[k v] l IH]; [rewrite !leval_nil; ring|].
      rewrite !leval_cons, IH. unfold s', unitv. destruct (ieqb k i) eqn:Ek.
      - apply ieqb_eq in Ek. subst k. unfold s. rewrite (proj2 (ieqb_neq i I0) Hi). ring.
      - ring. }
    unfold ceval in *. rewrite Hd in E2.
    replace (leval (unitv i) (clc a)) with (leval s (clc a) + leval (unitv i) (clc a) - leval s (clc a)) by ring.
    rewrite <- E2. ring. }
  split.
  - intros v. split; intros H.
    + intros s Hs. now apply as_const_eval.
    + destruct (as_const a) as [w|] eqn:E.
      * f_equal. rewrite <- (as_const_eval (fun _ => n1) a w); auto.
      * destruct (Hnc eq_refl) as [s [s' [H1 [H2 H3]]]]. exfalso. apply H3. rewrite !H; auto.
  - split; auto. intros [s [s' [H1 [H2 H3]]]]. destruct (as_const a) as [w|] eqn:E; auto.
    exfalso. apply H3. now rewrite !(as_const_eval _ a w).
Qed.

(* C04 *)
Lemma claim_C04_operand_order : forall (a b : CNum p), canonical (clc a) -> canonical (clc b) ->
  cadd b a = cadd a b /\ cadd_cap a b = cadd a b /\ cadd_cap b a = cadd a b /\
  cadd_rv a b = cadd a b /\ cadd_rv b a = cadd a b.
Proof.
  intros a b Ha Hb. assert (E : cadd b a = cadd a b) by now apply cadd_comm.
  unfold cadd_rv, cadd_cap. destruct (Nat.leb (ccap b) (ccap a)), (Nat.leb (ccap a) (ccap b)); auto.
Qed.

(* C06 *)
Lemma claim_C06_mul : forall (U : list Index) (a b : CNum p), In I0 U -> owned U a -> owned U b ->
  sound_for U (cmul a b) (fun s r => ceval s r = ceval s a * ceval s b) /\
  complete_for U (cmul a b) (fun s => valued s a /\ valued s b)
    (fun s r => valued s r /\ ceval s r = ceval s a * ceval s b) /\
  (blank a -> blank b -> synth_for U (cmul a b) (fun k n r => blank r /\
     (as_const a = None -> as_const b = None -> k = 1%nat /\ n = 1%nat) /\
     (as_const a <> None \/ as_const b <> None -> k = 0%nat /\ n = 0%nat))).
Proof.
  intros U a b H0 Ha Hb. split; [|split].
  - apply wp_sound_for; auto. intros s HS.
    eapply wp_mono; [apply (wp_cmul Hp); auto with claims|].
    intros S1 r _ [_ H]. apply H; discriminate.
  - apply wp_complete_for; auto.
    + intros s s' E [H1 H2]. eauto using valued_ext.
    + intros s HS [H1 H2]. eapply wp_mono; [apply (wp_cmul Hp); auto with claims|].
      intros S1 r _ [[_ G] H]. split; [exact G|apply H; discriminate].
  - intros Ba Bb. apply wp_synth_for; auto. intros s HS.
    destruct (as_const a) as [va|] eqn:Ea.
    + rewrite (cmul_const1 _ _ _ Ea). apply wp_ret. intros k Hk. cbn in Hk. split; [|split; [discriminate|]].
      * apply (good_mul_num Hp Setup s (mkst U 0) HS b va). auto with claims.
      * intros _. split; auto; lia.
    + destruct (as_const b) as [vb|] eqn:Eb.
      * rewrite (cmul_const2 _ _ _ Ea Eb). apply wp_ret. intros k Hk. cbn in Hk. split; [|split; [discriminate|]].
        -- apply (good_mul_num Hp Setup s (mkst U 0) HS a vb). auto with claims.
        -- intros _. split; auto; lia.
      * eapply wp_mono; [apply (wp_cmul_nc Hp); auto with claims|].
        intros S1 r _ [[[_ G] _] [_ [B1 B2]]] k Hk. cbn in *. split; [exact G|]. split; [lia|].
        intros [X|X]; congruence.
Qed.

(* C07 *)
Lemma claim_C07_div : forall (U : list Index) (a b : CNum p), In I0 U -> owned U a -> owned U b -> as_const a = None ->
  sound_for U (cdiv a b) (fun s r => ceval s r * ceval s b = ceval s a) /\
  complete_for U (cdiv a b) (fun s => valued s a /\ valued s b /\ ceval s b <> n0)
    (fun s r => valued s r /\ ceval s r * ceval s b = ceval s a) /\
  (blank a -> blank b -> as_const b <> Some n0 -> synth_for U (cdiv a b) (fun k n r => blank r /\
     (as_const b = None -> k = 1%nat /\ n = 1%nat) /\ (as_const b <> None -> k = 0%nat /\ n = 0%nat))).
Proof.
  intros U a b H0 Ha Hb Na. split; [|split].
  - apply wp_sound_for; auto. intros s HS.
    eapply wp_mono; [apply (wp_cdiv Hp); auto with claims; discriminate|].
    intros S1 r _ [_ [H _]]. apply H; discriminate.
  - apply wp_complete_for; auto.
    + intros s s' E [H1 [H2 H3]]. split; [|split]; eauto using valued_ext.
      now rewrite (ceval_ext_owned U b s s').
    + intros s HS [H1 [H2 H3]]. eapply wp_mono; [apply (wp_cdiv Hp); auto with claims; discriminate|].
      intros S1 r _ [[_ G] [H _]]. split; [exact G|apply H; discriminate].
  - intros Ba Bb Nb. apply wp_synth_for; auto. intros s HS.
    eapply wp_mono; [apply (wp_cdiv Hp); auto with claims; discriminate|].
    intros S1 r _ [[_ G] [_ [_ [H1 H2]]]] k Hk. split; [exact G|]. split.
    + intros E. destruct (H1 E) as [_ [B1 B2]]. cbn in *. lia.
    + intros E. destruct (H2 E) as [-> _]. cbn in *. lia.
Qed.

(* C08: what a constant numerator gives instead of the quotient *)
Lemma claim_C08_div_const_actual : forall (U : list Index) (a b : CNum p) (k : Num p), In I0 U -> owned U a -> owned U b -> as_const a = Some k ->
  (k <> n0 -> sound_for U (cdiv a b) (fun s r => ceval s r * ceval s a = ceval s b)) /\
  (k = n0 -> cvalue b <> None \/ clc b <> [] -> cdiv a b = PPanic).
Proof.
  intros U a b k H0 Ha Hb Ea. unfold cdiv. rewrite Ea. split.
  - intros Hk. rewrite cdiv_num_ok by auto. cbn [plift]. intros s tr r H1 He _. inversion He; subst.
    fold (cdivn b k). rewrite (ceval_divn Hp), (as_const_eval s a k) by auto. field; auto.
  - intros -> Hb2. now rewrite cdiv_num_zero.
Qed.

(* C09 *)
Lemma claim_C09_is_zero : forall (U : list Index) (a : CNum p), In I0 U -> owned U a ->
  sound_for U (cis_zero a) (fun s r =>
    (ceval s a = n0 -> ceval s r = n1) /\ (ceval s a <> n0 -> ceval s r = n0)) /\
  complete_for U (cis_zero a) (fun s => valued s a) (fun s r => valued s r /\
    (ceval s a = n0 -> ceval s r = n1) /\ (ceval s a <> n0 -> ceval s r = n0)) /\
  (blank a -> synth_for U (cis_zero a) (fun k n r => blank r /\
     (as_const a = None -> k = 3%nat /\ n = 3%nat))).
Proof.
  intros U a H0 Ha.
  assert (X : forall v r : F, r = nbool (nis_zero v) -> (v = n0 -> r = n1) /\ (v <> n0 -> r = n0)).
  { intros v r ->. split; intros E.
    - now rewrite (proj2 (nis_zero_eq v) E).
    - now rewrite (proj2 (nis_zero_neq v) E). }
  split; [|split].
  - apply wp_sound_for; auto. intros s HS.
    eapply wp_mono; [apply (wp_is_zero Hp); auto with claims|].
    intros S1 r _ [[_ H] _]. apply X, H; discriminate.
  - apply wp_complete_for; auto; [eauto using valued_ext|].
    intros s HS H. eapply wp_mono; [apply (wp_is_zero Hp); auto with claims|].
    intros S1 r _ [[[_ G] E] _]. split; [exact G|]. apply X, E; discriminate.
  - intros Ba. apply wp_synth_for; auto. intros s HS.
    destruct (as_const a) as [v|] eqn:Ea.
    + unfold cis_zero. rewrite Ea. apply wp_ret. intros k Hk. split; [|discriminate].
      intros w Hw. cbn in *. congruence.
    + eapply wp_mono; [apply (wp_is_zero_nc Hp); auto with claims|].
      intros S1 r _ [[[_ G] _] [_ [[B1 B2] _]]] k Hk. cbn in *. split; [exact G|]. lia.
Qed.
Lemma claim_C09_is_eq : forall (U : list Index) (a b : CNum p), In I0 U -> owned U a -> owned U b ->
  sound_for U (cis_eq a b) (fun s r =>
    (ceval s a = ceval s b -> ceval s r = n1) /\ (ceval s a <> ceval s b -> ceval s r = n0)) /\
  complete_for U (cis_eq a b) (fun s => valued s a /\ valued s b) (fun s r => valued s r /\
    (ceval s a = ceval s b -> ceval s r = n1) /\ (ceval s a <> ceval s b -> ceval s r = n0)).
Proof.
  intros U a b H0 Ha Hb.
  assert (X : forall v w r : F, r = nbool (neqb v w) -> (v = w -> r = n1) /\ (v <> w -> r = n0)).
  { intros v w r ->. split; intros E.
    - now rewrite (proj2 (neqb_eq v w) E).
    - now rewrite (proj2 (neqb_neq v w) E). }
  split.
  - apply wp_sound_for; auto. intros s HS.
    eapply wp_mono; [apply (wp_is_eq Hp); auto with claims|].
    intros S1 r _ [_ H]. apply X, H; discriminate.
  - apply wp_complete_for; auto; [intros s s' E [? ?]; eauto using valued_ext|].
    intros s HS [H1 H2]. eapply wp_mono; [apply (wp_is_eq Hp); auto with claims|].
    intros S1 r _ [[_ G] E]. split; [exact G|]. apply X, E; discriminate.
Qed.

(* C10 *)
Lemma claim_C10_assertions : forall (U : list Index) (a b : CNum p) (k : Num p), In I0 U -> owned U a -> owned U b ->
  (sound_for U (cassert_const a k) (fun s _ => ceval s a = k) /\
   complete_for U (cassert_const a k) (fun s => valued s a /\ ceval s a = k) (fun _ _ => True)) /\
  (sound_for U (cassert_zero a) (fun s _ => ceval s a = n0) /\
   complete_for U (cassert_zero a) (fun s => valued s a /\ ceval s a = n0) (fun _ _ => True)) /\
  (sound_for U (cassert_eq a b) (fun s _ => ceval s a = ceval s b) /\
   complete_for U (cassert_eq a b) (fun s => valued s a /\ valued s b /\ ceval s a = ceval s b) (fun _ _ => True)) /\
  (sound_for U (cassert_nonzero a) (fun s _ => ceval s a <> n0) /\
   complete_for U (cassert_nonzero a) (fun s => valued s a /\ ceval s a <> n0) (fun _ _ => True)) /\
  (sound_for U (cassert_bit a) (fun s _ => ceval s a = n0 \/ ceval s a = n1) /\
   complete_for U (cassert_bit a) (fun s => valued s a /\ (ceval s a = n0 \/ ceval s a = n1)) (fun _ _ => True)).
Proof.
  intros U a b k H0 Ha Hb.
  assert (Hext : forall (P : F -> Prop) s s', (forall i, In i U -> s' i = s i) ->
     valued s a /\ P (ceval s a) -> valued s' a /\ P (ceval s' a)).
  { intros P s s' E [H1 H2]. split; eauto using valued_ext. now rewrite (ceval_ext_owned U a s s'). }
  assert (HC : forall k, sound_for U (cassert_const a k) (fun s _ => ceval s a = k) /\
   complete_for U (cassert_const a k) (fun s => valued s a /\ ceval s a = k) (fun _ _ => True)).
  { intros k'. split.
    - apply wp_sound_for; auto. intros s HS.
      eapply wp_mono; [apply (wp_assert_const Hp); auto with claims; discriminate|].
      intros S1 r _ [H _]. apply H; discriminate.
    - apply wp_complete_for; auto; [apply (Hext (fun v => v = k'))|].
      intros s HS [H1 H2]. eapply wp_mono; [apply (wp_assert_const Hp); auto with claims; discriminate|]. auto. }
  split; [apply HC|]. split; [apply HC|]. split; [split|split; split].
  - apply wp_sound_for; auto. intros s HS.
    eapply wp_mono; [apply (wp_assert_eq Hp); auto with claims; discriminate|].
    intros S1 r _ [H _]. apply H; discriminate.
  - apply wp_complete_for; auto.
    + intros s s' E [H1 [H2 H3]]. split; [|split]; eauto using valued_ext.
      now rewrite (ceval_ext_owned U a s s'), (ceval_ext_owned U b s s').
    + intros s HS [H1 [H2 H3]]. eapply wp_mono; [apply (wp_assert_eq Hp); auto with claims; discriminate|]. auto.
  - apply wp_sound_for; auto. intros s HS.
    eapply wp_mono; [apply (wp_assert_nonzero Hp); auto with claims; discriminate|].
    intros S1 r _ [H _]. apply H; discriminate.
  - apply wp_complete_for; auto; [apply (Hext (fun v => v <> n0))|].
    intros s HS [H1 H2]. eapply wp_mono; [apply (wp_assert_nonzero Hp); auto with claims; discriminate|]. auto.
  - apply wp_sound_for; auto. intros s HS.
    eapply wp_mono; [apply (wp_assert_bit Hp); auto with claims; discriminate|].
    intros S1 r _ [H _]. apply H; discriminate.
  - apply wp_complete_for; auto; [apply (Hext (fun v => v = n0 \/ v = n1))|].
    intros s HS [H1 H2]. eapply wp_mono; [apply (wp_assert_bit Hp); auto with claims; discriminate|]. auto.
Qed.

(* C11 *)
Lemma claim_C11_switch : forall (U : list Index) (a bit b : CNum p), In I0 U -> owned U a -> owned U bit -> owned U b ->
  sound_for U (cswitch a bit b) (fun s r =>
    (ceval s bit = n1 -> ceval s r = ceval s a) /\ (ceval s bit = n0 -> ceval s r = ceval s b)) /\
  complete_for U (cswitch a bit b)
    (fun s => valued s a /\ valued s bit /\ valued s b /\ (ceval s bit = n0 \/ ceval s bit = n1))
    (fun s r => valued s r /\
    (ceval s bit = n1 -> ceval s r = ceval s a) /\ (ceval s bit = n0 -> ceval s r = ceval s b)) /\
  (blank a -> blank bit -> blank b -> (forall v, as_const bit = Some v -> v = n0 \/ v = n1) ->
   synth_for U (cswitch a bit b) (fun k n r => blank r /\
     (as_const bit <> None -> k = 0%nat /\ n = 0%nat))).
Proof.
  intros U a bit b H0 Ha Hbit Hb. split; [|split].
  - apply wp_sound_for; auto. intros s HS.
    eapply wp_mono; [apply (wp_switch Hp); auto with claims; discriminate|].
    intros S1 r _ [_ [H1 H2]]. split; [apply H1|apply H2]; discriminate.
  - apply wp_complete_for; auto.
    + intros s s' E [H1 [H2 [H3 H4]]]. split; [|split; [|split]]; eauto using valued_ext.
      now rewrite (ceval_ext_owned U bit s s').
    + intros s HS [H1 [H2 [H3 H4]]]. eapply wp_mono; [apply (wp_switch Hp); auto with claims; discriminate|].
      intros S1 r _ [[_ G] [E1 E2]]. split; [exact G|]. split; [apply E1|apply E2]; discriminate.
  - intros B1 B2 B3 Hc. apply wp_synth_for; auto. intros s HS.
    destruct (as_const bit) as [v|] eqn:Eb.
    + unfold cswitch, cb_as_const. rewrite Eb. cbn [omapM]. destruct (ninto_bool_ok Hp v) as [x [Ex _]].
      { apply Hc; auto. }
      rewrite Ex. cbn [rmap plift pbind]. destruct x; apply wp_ret; intros k Hk; cbn in *; (split; [assumption|]); lia.
    + eapply wp_mono; [apply (wp_switch Hp); auto with claims; try discriminate|].
      * intros _ v Hv. congruence.
      * intros S1 r _ [[_ G] _] k Hk. split; [exact G|congruence].
Qed.
End PrimeClaims.
Unset Default Proof Using.

(* C08 *)
Lemma p13 : Prime 13.
Proof. apply trial_prime. vm_compute. reflexivity. Qed.

Lemma claim_C08_div_const_refuted :
  exists (p : positive) (a b : CNum p) (s : Index -> Num p) (r : CNum p),
    Prime p /\ owned [I0] a /\ owned [I0] b /\ s I0 = n1 /\ ceval s a <> n0 /\ ceval s b <> n0 /\
    exec [I0] (cdiv a b) [] (Some r) /\ ceval s r * ceval s b <> ceval s a.
Proof.
  exists 13%positive, (cconst (num 2)), (cconst (num 3)), (fun _ => n1).
  eexists. split; [exact p13|]. split; [apply (wf_const (mkst [I0] 0)); now left|].
  split; [apply (wf_const (mkst [I0] 0)); now left|]. split; [reflexivity|].
  assert (D : forall x y : Num 13, neqb x y = false -> x <> y) by (intros x y; apply neqb_neq).
  split; [apply D; vm_compute; reflexivity|]. split; [apply D; vm_compute; reflexivity|].
  split; [vm_compute; constructor|]. apply D. vm_compute. reflexivity.
Qed.

(* C14 *)
Lemma claim_C14_bool_alloc_refuted :
  exists (p : positive) (tr : list (event p)) (b : CBool p) (s : Index -> Num p),
    Prime p /\ exec [I0] (cballoc (Some true)) tr (Some b) /\ s I0 = n1 /\ sat s tr /\
    ceval s b <> n0 /\ ceval s b <> n1.
Proof.
  exists 13%positive, [EAlloc (Aux 0) (Some n1)], (cvar (Some n1) (Aux 0)), (fun i => if ieqb i I0 then n1 else num 5).
  split; [exact p13|]. split; [|split; [reflexivity|split]].
  - apply ex_alloc; [intros [E|[]]; discriminate|]. constructor.
  - intros a b c [E|[]]. discriminate.
  - assert (D : forall x y : Num 13, neqb x y = false -> x <> y) by (intros x y; apply neqb_neq).
    split; apply D; vm_compute; reflexivity.
Qed.
(* what makes a CBool boolean is the explicit assertion *)
Lemma claim_C14_bool_assert : forall (p : positive), Prime p -> forall (U : list Index) (v : option bool), In I0 U ->
  sound_for U (b <-- @cballoc p v ;; cb_assert b ;;; Ret b) (fun s b => ceval s b = n0 \/ ceval s b = n1).
Proof.
  intros p Hp U v H0. apply wp_sound_for; auto. intros s HS.
  apply wp_bind. unfold cballoc. apply (wp_calloc Hp); [discriminate|].
  intros i Hi S1 r Hg _ Hev Hvar _.
  eapply wp_use; [apply (wp_assert_bit Hp); try discriminate|].
  - eapply okS_incl; [exact HS|]. intros j Hj. now right.
  - apply Hg. left. discriminate.
  - intros S2 [] _ [H _]. apply wp_ret. apply H. discriminate.
Qed.

(** Concrete cases, over the field with 13 elements: x = 5 and y = 7 are the
    variables Aux 0 and Aux 1. *)
Definition x13 : CNum 13 := cvar (Some (num 5)) (Aux 0).
Definition y13 : CNum 13 := cvar (Some (num 7)) (Aux 1).
Definition U13 : list Index := [I0; Aux 0; Aux 1].
Lemma owned_x13 : owned U13 x13 /\ owned U13 y13 /\ owned U13 (cadd_num x13 (num 3)).
Proof.
  assert (H : forall v i, In i U13 -> owned U13 (@cvar 13 v i)).
  { intros v i Hi. apply (wf_var (p:=13) ltac:(lia) (mkst U13 0)). exact Hi. }
  assert (owned U13 x13) by (apply H; cbn; auto).
  split; auto. split; [apply H; cbn; auto|].
  apply (wf_add (mkst U13 0) x13); auto. apply (wf_const (mkst U13 0)). now left.
Qed.
Ltac demo_tac b := apply (demob_ok _ _ _ b); [intros ? ?; rewrite ?Bool.andb_true_iff, ?neqb_eq; cbn; tauto|vm_compute; reflexivity].

Lemma case_C01_linear :
  map (fun kv => (fst kv, nval (snd kv))) (clc (cadd x13 (csub_num y13 (num 3)))) = [(I0, 10%Z); (Aux 0, 1%Z); (Aux 1, 1%Z)] /\
  option_map nval (cvalue (cadd x13 (csub_num y13 (num 3)))) = Some 9%Z /\ cdiv_num x13 (num 2) <> Panic /\
  cdiv_num x13 n0 = Panic.
Proof. split; [vm_compute; reflexivity|]. split; [vm_compute; reflexivity|]. split; [vm_compute; discriminate|vm_compute; reflexivity]. Qed.
Lemma case_C03_as_const_exact :
  canonical (clc (csub x13 x13)) /\ as_const (csub x13 x13) = Some n0 /\ canonical (clc x13) /\ as_const x13 = None.
Proof.
  destruct owned_x13 as [[H _] _]. split; [|split; [reflexivity|split; [exact H|reflexivity]]].
  apply (wf_sub (mkst U13 0) x13 x13); apply owned_x13.
Qed.
Lemma case_C04_operand_order :
  canonical (clc x13) /\ canonical (clc (cadd_num x13 (num 3))) /\
  ccap x13 <> ccap (cadd_num x13 (num 3)).
Proof. split; [apply owned_x13|]. split; [apply owned_x13|]. vm_compute. discriminate. Qed.
Lemma case_C06_mul : owned U13 x13 /\ owned U13 y13 /\
  demo [num 5; num 7] (cmul x13 y13) (fun s r => ceval s r = num 9 /\ as_const r = None).
Proof.
  split; [apply owned_x13|]. split; [apply owned_x13|].
  apply (demob_ok _ _ _ (fun s r => neqb (ceval s r) (num 9) && match as_const r with None => true | _ => false end)).
  - intros s r. rewrite Bool.andb_true_iff, neqb_eq. destruct (as_const r); intuition discriminate.
  - vm_compute. reflexivity.
Qed.
Lemma case_C07_div : owned U13 x13 /\ owned U13 y13 /\ as_const x13 = None /\
  demo [num 5; num 7] (cdiv x13 y13) (fun s r => ceval s r = num 10 /\ ceval s y13 = num 7).
Proof.
  split; [apply owned_x13|]. split; [apply owned_x13|]. split; [reflexivity|].
  demo_tac (fun (s : Index -> Num 13) r => neqb (ceval s r) (num 10) && neqb (ceval s y13) (num 7)).
Qed.
Lemma case_C08_div_const_actual :
  demo [num 5; num 7] (cdiv (cconst (num 2)) y13) (fun s r => ceval s r * num 2 = num 7 /\ ceval s r * num 7 <> num 2).
Proof.
  apply (demob_ok _ _ _ (fun s r => neqb (ceval s r * num 2) (num 7) && negb (neqb (ceval s r * num 7) (num 2)))).
  - intros s r. rewrite Bool.andb_true_iff, neqb_eq, Bool.negb_true_iff, neqb_neq. tauto.
  - vm_compute. reflexivity.
Qed.
Lemma case_C09_is_zero : owned U13 x13 /\ owned U13 y13 /\
  demo [num 5; num 7] (cis_zero x13) (fun s r => ceval s r = n0) /\
  demo [num 5; num 7] (cis_zero (csub_num x13 (num 5))) (fun s r => ceval s r = n1).
Proof.
  split; [apply owned_x13|]. split; [apply owned_x13|]. split.
  - demo_tac (fun (s : Index -> Num 13) r => neqb (ceval s r) n0).
  - demo_tac (fun (s : Index -> Num 13) r => neqb (ceval s r) n1).
Qed.
Lemma case_C09_is_eq :
  demo [num 5; num 7] (cis_eq x13 y13) (fun s r => ceval s r = n0) /\
  demo [num 5; num 7] (cis_eq (cadd_num x13 (num 2)) y13) (fun s r => ceval s r = n1).
Proof.
  split.
  - demo_tac (fun (s : Index -> Num 13) r => neqb (ceval s r) n0).
  - demo_tac (fun (s : Index -> Num 13) r => neqb (ceval s r) n1).
Qed.
Lemma case_C10_assertions :
  demo [num 5; num 7] (cassert_const x13 (num 5) ;;; cassert_nonzero y13 ;;; cassert_eq (cadd_num x13 (num 2)) y13 ;;;
                       cassert_bit (csub_num x13 (num 4)) ;;; cassert_zero (csub_num y13 (num 7))) (fun s _ => ceval s x13 = num 5).
Proof. demo_tac (fun (s : Index -> Num 13) (_ : unit) => neqb (ceval s x13) (num 5)). Qed.
Lemma case_C11_switch :
  demo [num 5; num 7] (cswitch x13 (csub_num x13 (num 4)) y13) (fun s r => ceval s r = num 5) /\
  demo [num 5; num 7] (cswitch x13 (csub_num x13 (num 5)) y13) (fun s r => ceval s r = num 7).
Proof.
  split.
  - demo_tac (fun (s : Index -> Num 13) r => neqb (ceval s r) (num 5)).
  - demo_tac (fun (s : Index -> Num 13) r => neqb (ceval s r) (num 7)).
Qed.
Lemma case_C14_bool_assert :
  demo [] (b <-- @cballoc 13 (Some true) ;; cb_assert b ;;; Ret b) (fun s b => ceval s b = n1).
Proof. demo_tac (fun (s : Index -> Num 13) b => neqb (ceval s b) n1). Qed.
