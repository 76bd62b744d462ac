(** What the gadgets that take Booleans compute when a signal is not one:
    switch (circuit/num.rs:48-65), c_from_bits_le and c_mux3
    (circuit/bitify.rs, circuit/mux.rs:7-34) and CEdwardsPoint::mul
    (circuit/ecc.rs). CBool::alloc adds no constraint (C14). *)

From Verif Require Export CEccClaims ConstClaims.
Open Scope num_scope.

Section Loose.
Context {p : positive} (Hp : Prime p).
Notation F := (Num p).
Add Field loose_field : (num_field Hp) (morphism (@num_morph p), constants [num_cst], power_tac (@num_power p) [num_pow_cst]).

(** The polynomial of degree one in each of x, y, z with the eight values of the
    column at the eight corners. *)
Definition trilinear (x y z : F) (col : list F) : F :=
  let c i := nth i col 0 in
  (1 - z) * ((1 - y) * ((1 - x) * c 0%nat + x * c 1%nat) + y * ((1 - x) * c 2%nat + x * c 3%nat)) +
  z * ((1 - y) * ((1 - x) * c 4%nat + x * c 5%nat) + y * ((1 - x) * c 6%nat + x * c 7%nat)).
(** b_0 + 2 b_1 + 4 b_2 + … *)
Fixpoint weighted (bs : list F) : F :=
  match bs with [] => 0 | b :: bs => b + (1 + 1) * weighted bs end.

Lemma from_bits_loop_eval s S0 : okS s S0 -> forall bits k a, Forall (good Sound s S0) bits -> good Sound s S0 a ->
  ceval s (from_bits_loop bits k a) = ceval s a + k * ((1 + 1) * weighted (map (ceval s) bits)).
Proof.
  intros HS. induction bits as [|b bits IH]; intros k a G Ga; cbn [from_bits_loop map weighted]; [ring|].
  inversion G; subst. cbv zeta. rewrite IH; auto using good_add, good_mul_num.
  rewrite ceval_add, ceval_mul_num. unfold ndouble. ring.
Qed.

Lemma wp_mux3_col_loose md s S0 (s0 s1 s2 s10 : CNum p) (col : list F) :
  okS s S0 -> good md s S0 s0 -> good md s S0 s1 -> good md s S0 s2 -> good md s S0 s10 ->
  wp md s S0 (mux3_col s0 s1 s2 s10 col) (fun S1 r =>
    good md s S1 r /\
    (ceval s s10 = ceval s s0 * ceval s s1 -> md <> Setup -> ceval s r = trilinear (ceval s s0) (ceval s s1) (ceval s s2) col)).
Proof.
  intros HS G0 G1 G2 G10. unfold mux3_col.
  eapply wp_use.
  { apply (wp_cmul Hp); auto. repeat first [apply good_add_num; auto | apply good_add_cap; auto | apply good_mul_num; auto]. }
  intros S1 t I1 [Gt Et]. assert (HS1 : okS s S1) by (eapply okS_incl; eauto).
  assert (forall c, good md s S0 c -> good md s S1 c) as L by (intros; eapply good_incl; eauto).
  apply wp_ret. split.
  - repeat first [apply good_add_num; auto | apply good_add_cap; auto | apply good_mul_num; auto].
  - intros E10 Hm.
    rewrite ceval_add_num, !ceval_add_cap, (Et Hm), ceval_add_num, !ceval_add_cap, !ceval_mul_num by apply HS.
    rewrite E10. unfold trilinear. cbv zeta. ring.
Qed.
Lemma wp_mux3_loose md s S0 (s0 s1 s2 : CNum p) (c : list (list F)) :
  okS s S0 -> good md s S0 s0 -> good md s S0 s1 -> good md s S0 s2 -> md <> Setup ->
  (md <> Sound -> Forall (fun col => length col = 8%nat) c) ->
  wp md s S0 (c_mux3 [s0; s1; s2] c) (fun S1 r =>
    Forall (good md s S1) r /\ map (ceval s) r = map (trilinear (ceval s s0) (ceval s s1) (ceval s s2)) c).
Proof.
  intros HS G0 G1 G2 Hm Hh. unfold c_mux3.
  destruct (forallb (fun col => Nat.eqb (length col) 8) c) eqn:Ef; cycle 1.
  { cbn [passert pbind wp]. destruct md; auto; exfalso; pose proof (Hh ltac:(discriminate)) as Hh';
      (rewrite (proj2 (forallb_forall _ _)) in Ef; [discriminate|]);
      intros col Hc; apply Nat.eqb_eq; rewrite Forall_forall in Hh'; auto. }
  cbn [passert pbind].
  eapply wp_use; [apply (wp_cmul Hp); [auto|exact G0|exact G1]|].
  intros S1 s10 I1 [G10 E10]. assert (HS1 : okS s S1) by (eapply okS_incl; eauto).
  eapply wp_mono.
  { apply (wp_pmapM md s _ (fun S2 col r => good md s S2 r /\ ceval s r = trilinear (ceval s s0) (ceval s s1) (ceval s s2) col)).
    - intros A B col r HI [X Y]. split; auto. eapply good_incl; eauto.
    - intros S2 col Hc I2. eapply wp_mono.
      + apply (wp_mux3_col_loose md s S2 s0 s1 s2 s10 col);
          try (eapply good_incl; [eassumption|eauto using incl_tran]). eapply okS_incl; eauto.
      + intros S3 r _ [Gr Er]. split; auto. }
  intros S2 r I2 HF. split.
  - clear -HF. induction HF as [|? ? ? ? [? _]]; constructor; auto.
  - clear -HF. induction HF as [|col r' c r [_ H] HF IH]; cbn [map]; congruence.
Qed.
Lemma wp_assert_all s : forall (l : list (CNum p)) S0, okS s S0 -> Forall (good Sound s S0) l ->
  wp Sound s S0 (pmapM cb_assert l) (fun S1 _ => exists bs, ebits s l bs).
Proof.
  induction l as [|c l IH]; intros S0 HS G; cbn [pmapM].
  - apply wp_ret. exists []. constructor.
  - inversion G; subst. eapply wp_use; [apply (wp_assert_bit Hp); auto; discriminate|]. intros S1 u I1 [B1 _]. lift_good I1.
    eapply wp_use; [apply IH; auto|]. intros S2 us I2 [bs Hb]. apply wp_ret.
    destruct (B1 ltac:(discriminate)) as [E|E]; [exists (false :: bs)|exists (true :: bs)]; constructor; auto.
Qed.
End Loose.

Section PrimeClaims.
Context (p : positive) (Hp : Prime p).
Add Field loose_field' : (num_field Hp) (morphism (@num_morph p), constants [num_cst], power_tac (@num_power p) [num_pow_cst]).
Set Default Proof Using "Hp".

(** switch is the line through its two operands, and a prover completes it for
    any value of the signal. *)
Lemma claim_C86_switch : forall (U : list Index) (a bit b : CNum p), In I0 U -> owned U a -> owned U bit -> owned U b -> as_const bit = None ->
  let line := fun s r => ceval s r = ceval s b + ceval s bit * (ceval s a - ceval s b) in
  sound_for U (cswitch a bit b) line /\
  complete_for U (cswitch a bit b) (fun s => valued s a /\ valued s bit /\ valued s b) (fun s r => valued s r /\ line s r).
Proof.
  intros U a bit b H0 Ha Hbit Hb Hn line. split.
  - apply wp_sound_for; auto. intros s HS. eapply wp_mono; [apply (PoseidonSpec.wp_switch_nc Hp); auto with claims|].
    intros S1 r _ [_ H]. apply H. discriminate.
  - apply wp_complete_for; auto.
    + intros s s' E [H1 [H2 H3]]. split; [|split]; eauto using valued_ext.
    + intros s HS [H1 [H2 H3]]. eapply wp_mono; [apply (PoseidonSpec.wp_switch_nc Hp); auto with claims|].
      intros S1 r _ [[_ G] H]. split; [exact G|]. apply H. discriminate.
Qed.
(** So between two different operands it gives every number of the field, each
    for exactly one value of the signal. *)
Lemma claim_C86_switch_any : forall (U : list Index) (a bit b : CNum p), In I0 U -> owned U a -> owned U bit -> owned U b -> as_const bit = None ->
  sound_for U (cswitch a bit b) (fun s r => ceval s a <> ceval s b ->
    forall t, ceval s r = t <-> ceval s bit = fdiv (t - ceval s b) (ceval s a - ceval s b)).
Proof.
  intros U a bit b H0 Ha Hbit Hb Hn. destruct (claim_C86_switch U a bit b H0 Ha Hbit Hb Hn) as [S _].
  intros s tr r X Hs Hsat N t. rewrite (S s tr r X Hs Hsat).
  assert (D : ceval s a - ceval s b <> 0).
  { intros E. apply N. replace (ceval s a) with (ceval s a - ceval s b + ceval s b) by ring. rewrite E. ring. }
  split; [intros <-|intros ->]; field; auto.
Qed.
(** c_from_bits_le adds the signals with the powers of two as weights; one
    signal is enough for any number. *)
Lemma claim_C86_from_bits : forall (bits : list (CBool p)) (r : CNum p) s, s I0 = n1 -> Forall (fun c => canonical (clc c)) bits ->
  c_from_bits_le bits = Ok r -> ceval s r = weighted (map (ceval s) bits).
Proof.
  intros [|b bits] r s H0 Hc E; [discriminate|]. cbn in E. inversion E; subst.
  set (U := I0 :: flat_map (fun c : CBool p => map fst (clc c)) (b :: bits)).
  assert (HS : okS s (mkst U 0)) by (split; auto; now left).
  assert (G : Forall (good Sound s (mkst U 0)) (b :: bits)).
  { rewrite Forall_forall in *. intros c Hin. split; [split|exact I].
    - now apply Hc.
    - intros k v Hkv. right. apply in_flat_map. exists c. split; auto. apply in_map_iff. exists (k, v). auto. }
  inversion G; subst. rewrite (from_bits_loop_eval Hp s (mkst U 0)) by auto. cbn [map weighted]. ring.
Qed.
(** c_mux3 is the trilinear interpolation of the eight constants. *)
Lemma claim_C86_mux3 : forall (U : list Index) (b0 b1 b2 : CBool p) (c : list (list (Num p))), In I0 U ->
  owned U b0 -> owned U b1 -> owned U b2 ->
  let inter := fun s r => map (ceval s) r = map (trilinear (ceval s b0) (ceval s b1) (ceval s b2)) c in
  sound_for U (c_mux3 [b0; b1; b2] c) inter /\
  (Forall (fun col => length col = 8%nat) c ->
   complete_for U (c_mux3 [b0; b1; b2] c) (fun s => valued s b0 /\ valued s b1 /\ valued s b2) (fun s r => Forall (valued s) r /\ inter s r)).
Proof.
  intros U b0 b1 b2 c H0 G0 G1 G2 inter. split.
  - apply wp_sound_for; auto. intros s HS. eapply wp_mono; [apply (wp_mux3_loose Hp); auto with claims; congruence|].
    intros S1 r _ [_ H]. exact H.
  - intros Hc. apply wp_complete_for; auto.
    + intros s s' E [H1 [H2 H3]]. split; [|split]; eapply valued_ext; eauto.
    + intros s HS [H1 [H2 H3]]. eapply wp_mono; [apply (wp_mux3_loose Hp); auto with claims; discriminate|].
      intros S1 r _ [G H]. split; [eauto with claims|exact H].
Qed.
End PrimeClaims.
Unset Default Proof Using.

Add Field loose_field73 : (num_field (j_p _ toy2_ok)) (morphism (@num_morph 73), constants [num_cst], power_tac (@num_power 73) [num_pow_cst]).
Lemma free73 : free_bits [v73 0 2; v73 1 1; v73 2 0; v73 3 1].
Proof.
  intros k0 k1 k2 c H. unfold v73 in H.
  pose proof (fun a b d => H (fun i => match i with Input _ => 1 | Aux 0 => a | Aux 1 => b | Aux _ => d end) eq_refl) as E.
  assert (E' : forall a b d : Num 73, k0 * a + k1 * b + k2 * d = c) by (intros a b d; rewrite <- (E a b d), !ceval_var; reflexivity).
  assert (Ec : c = 0) by (rewrite <- (E' 0 0 0); ring). subst c.
  split; [rewrite <- (E' 1 0 0); ring|]. split; [rewrite <- (E' 0 1 0); ring|rewrite <- (E' 0 0 1); ring].
Qed.
(** With a signal of value 2 among the bits, the product of a point of the
    subgroup, allocated or constant, need not be on the curve. *)
Lemma claim_C86_mul_variable_refuted : exists (p l : positive) (J : JubJub p l) (P : CPoint p) (bits : list (CBool p)) (v : list (Num p)),
  jubjub_ok J /\ (8 < Zpos l)%Z /\ cp_as_const P = None /\ Forall (fun b : CBool p => as_const b = None) bits /\
  demo v (ce_mul J P bits) (fun s R => insub J (cpe s P) /\ ~ on_curve (jd J) (cpe s R)).
Proof.
  exists 73%positive, 11%positive, toy2, (p73 0 1 56), [v73 2 2; v73 3 1], [num 1; num 56; num 2; num 1].
  split; [exact toy2_ok|]. split; [reflexivity|]. split; [reflexivity|]. split; [repeat constructor|].
  apply (demob_ok _ _ _ (fun s r => e_eqb (cpe s (p73 0 1 56)) (e73 1 56) && negb (e_is_in_curve (jd toy2) (cpe s r)))); [|vm_compute; reflexivity].
  intros s r. rewrite Bool.andb_true_iff, Bool.negb_true_iff. intros [X Y]. apply e_eqb_eq in X. rewrite X. split; [insub73|].
  intros Z. apply e_is_in_curve_iff in Z. congruence.
Qed.
Lemma claim_C86_mul_constant_refuted : exists (p l : positive) (J : JubJub p l) (P : EPoint p) (bits : list (CBool p)) (v : list (Num p)),
  jubjub_ok J /\ (8 < Zpos l)%Z /\ insub J P /\ free_bits bits /\
  demo v (ce_mul J (cp_from_const (ex P) (ey P)) bits) (fun s R => ~ on_curve (jd J) (cpe s R)).
Proof.
  exists 73%positive, 11%positive, toy2, (e73 1 56), [v73 0 2; v73 1 1; v73 2 0; v73 3 1], [num 2; num 1; num 0; num 1].
  split; [exact toy2_ok|]. split; [reflexivity|]. split; [insub73|]. split; [exact free73|].
  apply (demob_ok _ _ _ (fun s r => negb (e_is_in_curve (jd toy2) (cpe s r)))); [|vm_compute; reflexivity].
  intros s r. rewrite Bool.negb_true_iff. intros X Y. apply e_is_in_curve_iff in Y. congruence.
Qed.

(** With [assert] called on every signal first, the result is a multiple of the
    point, whatever the prover does. *)
Lemma claim_C86_mul_asserted : forall (p l : positive) (J : JubJub p l) (U : list Index) (P : CPoint p) (bits : list (CBool p)), jubjub_ok J -> (8 < Zpos l)%Z ->
  In I0 U -> Forall (owned U) (coords P ++ bits) ->
  let m := pmapM cb_assert bits ;;; ce_mul J P bits in
  (forall x y, cp_as_const P = Some (x, y) -> insub J (mkE x y) -> free_bits bits ->
   sound_for U m (fun s R => exists bs, ebits s bits bs /\ cpe s R = emul (jd J) (bval bs) (mkE x y))) /\
  (Forall (fun c => as_const c = None) (coords P) -> Exists (fun b => as_const b <> Some 0) bits ->
   sound_for U m (fun s R => insub J (cpe s P) -> exists bs, ebits s bits bs /\ cpe s R = emul (jd J) (bval bs) (cpe s P))).
Proof.
  intros p l J U P bits K L8 H0 Ho m. pose proof (j_p _ K) as Hp. apply Forall_app in Ho. destruct Ho as [OP OB]. unfold CBool in *. split.
  - intros x y HP Hc Hf. apply wp_sound_for; auto. intros s HS. unfold m.
    eapply wp_use; [apply (wp_assert_all Hp); auto with claims|]. intros S1 us I1 [bs Hb].
    assert (E : ce_mul J P bits = ce_mul_const J (mkE x y) bits) by (unfold ce_mul; now rewrite HP). rewrite E.
    eapply wp_mono; [apply (wp_ce_mul_const J K L8 Sound s S1 (mkE x y) bits bs); auto|].
    + eapply okS_incl; eauto.
    + eapply Forall_impl; [intros c G; eapply good_incl; [exact G|exact I1]|]. auto with claims.
    + now apply (free_bfirst Hp U).
    + cbv beta. intros S2 R _ [_ [ER _]]. exists bs. split; auto. apply ER. discriminate.
  - intros Hn Hx s tr R H1 He Hs HP.
    apply (wp_sound m s U tr R (fun _ R => exists bs, ebits s bits bs /\ cpe s R = emul (jd J) (bval bs) (cpe s P)) 0); auto.
    assert (HS : okS s (mkst U 0)) by (split; auto). unfold m.
    eapply wp_use; [apply (wp_assert_all Hp); auto with claims|]. intros S1 us I1 [bs Hb].
    unfold coords in Hn. rewrite !Forall_cons_iff in Hn. destruct Hn as [N1 [N2 _]].
    assert (E : ce_mul J P bits = ce_mul_var J P bits) by (unfold ce_mul, cp_as_const; now rewrite N1). rewrite E.
    assert (L : forall cs : list (CNum p), Forall (owned U) cs -> Forall (good Sound s S1) cs).
    { intros cs Hcs. eapply Forall_impl; [intros c G; eapply good_incl; [exact G|exact I1]|]. auto with claims. }
    eapply wp_mono; [apply (wp_ce_mul_var _ K Sound s S1 P bits bs); auto; try discriminate|].
    + eapply okS_incl; eauto.
    + apply good_coords. auto.
    + now split.
    + cbv beta. intros S2 R' _ [_ [ER _]]. exists bs. split; auto. apply ER. discriminate.
Qed.

(** Concrete cases: a switch between 3 and 5 with the signal 7, the number 9 from
    one signal, a table read at (2, 1, 0), in the field of 13 elements. *)
Lemma case_C86_switch : demo [num 3; num 7; num 5 : Num 13] (cswitch (cvar (Some (num 3)) (Aux 0)) (cvar (Some (num 7)) (Aux 1)) (cvar (Some (num 5)) (Aux 2)))
  (fun s r => ceval s r = num 4).
Proof.
  apply (demob_ok _ _ _ (fun s r => neqb (ceval s r) (num 4))); [intros s r H; now apply neqb_eq|vm_compute; reflexivity].
Qed.
Lemma case_C86_switch_any : (num 3 : Num 13) <> num 5 /\ fdiv (num 4 - num 5) (num 3 - num 5) = (num 7 : Num 13).
Proof.
  split; [apply neqb_neq; vm_compute; reflexivity|]. apply neqb_eq. vm_compute. reflexivity.
Qed.
Lemma case_C86_from_bits : exists r : CNum 13, c_from_bits_le [cvar (Some (num 9)) (Aux 0); cvar (Some n0) (Aux 1)] = Ok r /\
  ceval (fun i => match i with Aux O => num 9 | Input O => n1 | _ => n0 end) r = num 9.
Proof.
  eexists. split; [reflexivity|]. apply neqb_eq. vm_compute. reflexivity.
Qed.
Lemma case_C86_mux3 : demo [num 2; num 1; num 0 : Num 13]
  (c_mux3 [cvar (Some (num 2)) (Aux 0); cvar (Some (num 1)) (Aux 1); cvar (Some n0) (Aux 2)] [map num [1; 2; 3; 5; 0; 0; 0; 0]%Z])
  (fun s r => map (ceval s) r = [num 7]).
Proof.
  apply (demob_ok _ _ _ (fun s r => match r with [o] => neqb (ceval s o) (num 7) | _ => false end)); [|vm_compute; reflexivity].
  intros s [|o [|? ?]] H; try discriminate. apply neqb_eq in H. cbn. congruence.
Qed.
Lemma case_C86_mul_asserted : insub toy2 (e73 1 56) /\ free_bits [v73 0 1; v73 1 0; v73 2 1; v73 3 1] /\
  demo [num 1; num 0; num 1; num 1] (pmapM cb_assert [v73 0 1; v73 1 0; v73 2 1; v73 3 1] ;;;
    ce_mul toy2 (cp_from_const (num 1) (num 56)) [v73 0 1; v73 1 0; v73 2 1; v73 3 1]) (fun s R => cpe s R = emul (jd toy2) 13 (e73 1 56)).
Proof. split; [insub73|]. split; [exact free73|]. demo_pt. Qed.
