(** Circuit scalar multiplication with a variable base (circuit/ecc.rs:160-192). *)

From Verif Require Export CEccMul.
From Coq Require Import Lia.
Open Scope num_scope.

Section Var.
Context {p l : positive} (J : JubJub p l) (K : jubjub_ok J).
Notation F := (Num p).
Let Hp := j_p _ K.
Let Hm1 := j_m1 _ K.
Let Hd := j_d _ K.
Let HM := j_mont _ K.
Notation d := (jd J).
Notation A := (ja J).
Notation B := (jb J).
Add Field cv_field : (num_field Hp) (morphism (@num_morph p), constants [num_cst], power_tac (@num_power p) [num_pow_cst]).
Notation onc := (on_curve d).
Notation onm := (on_mont A B).
Notation "P +e Q" := (eadd d P Q) (at level 50, left associativity).
Notation sub := (sub J).
Set Default Proof Using "Type*".
Implicit Types (s : Index -> F).
Opaque emul.

Definition pow2 (i : nat) : Z := (2 ^ Z.of_nat i)%Z.
Lemma pow2_S i : pow2 (S i) = (2 * pow2 i)%Z.
Proof. unfold pow2. rewrite Nat2Z.inj_succ, Z.pow_succ_r; lia. Qed.

(** [es] are the points 2^i R, 2^(i+1) R, ... *)
Fixpoint erel s (R : EPoint p) (i : nat) (es : list (CPoint p)) : Prop :=
  match es with
  | [] => True
  | e :: es' => mrel A B (emul d (pow2 i) R) (cpm s e) /\ erel s R (S i) es'
  end.

Lemma wp_exponents md s R : (md <> Setup -> sub R) -> forall n i M S0,
  okS s S0 -> goodP md s S0 M -> ncP M ->
  (md <> Setup -> mrel A B (emul d (pow2 i) R) (cpm s M)) ->
  wp md s S0 (exponents_loop n A B M) (fun S1 es =>
    length es = n /\ Forall (goodP md s S1) es /\ Forall ncP es /\ (md <> Setup -> erel s R (S i) es) /\ bump S0 S1 (4 * n) (4 * n)).
Proof.
  intros HR n. induction n as [|n IH]; intros i M S0 HS GM NM RM; cbn [exponents_loop].
  - apply wp_ret. cbn [length]. repeat split; auto; cbn; lia.
  - assert (SR : md <> Setup -> sub (emul d (pow2 i) R)) by (intros; apply (sub_em _ K); auto).
    eapply wp_use; [apply (wp_cm_double Hp d A B Hm1 Hd HM md s S0 M); auto|].
    { intros Hm. apply (mrel_my _ K (emul d (pow2 i) R)); [apply SR|apply RM]; congruence. }
    intros S1 M1 I1 [G1 [E1 [N1 B1]]]. lift I1.
    assert (R1 : md <> Setup -> mrel A B (emul d (pow2 (S i)) R) (cpm s M1)).
    { intros Hm. rewrite (E1 Hm) by exact (mrel_my _ K _ _ (SR Hm) (RM Hm)).
      rewrite pow2_S, (emul_double Hp d Hm1 Hd) by apply (HR Hm).
      apply (tangent_ok Hp d A B Hm1 Hd HM); auto; [apply (SR Hm)|exact (mrel_mx _ K _ _ (SR Hm) (RM Hm))]. }
    eapply wp_use; [apply (IH (S i) M1 S1); auto; exact (newP_ncP s S0 M1 HS N1)|].
    intros S2 es I2 [L2 [G2 [N2 [R2 B2]]]]. lift I2.
    apply wp_ret. cbn [length erel]. split; [now rewrite L2|]. split; [constructor; auto|].
    split; [constructor; auto; exact (newP_ncP s S0 M1 HS N1)|]. split; [split; auto|].
    destruct B1, B2; split; lia.
Qed.

Definition zeroP : CPoint p := mkP czero czero.
(** The accumulator: the constant (0,0), or new with respect to [Se]. *)
Definition accdep (Se : st) (acc : CPoint p) : Prop := acc = zeroP \/ newP Se acc.

Lemma wp_acc_loop md s Se R : okS s Se -> (md <> Setup -> sub R) -> forall bits es acc S0 i k,
  okS s S0 -> incl (su Se) (su S0) -> length bits = length es ->
  Forall (good md s S0) bits ->
  (md = Setup -> Forall (fun b => forall v, as_const b = Some v -> isbit v) bits) ->
  Forall (goodP md s Se) es -> Forall ncP es -> goodP md s S0 acc -> accdep Se acc ->
  forall bs, (md <> Setup -> ebits s bits bs) ->
  (md <> Setup -> erel s R i es /\ mrel A B (T2 +e emul d k R) (cpm s acc)) ->
  wp md s S0 (acc_loop A B bits es acc) (fun S1 acc' =>
    goodP md s S1 acc' /\ (md <> Setup -> mrel A B (T2 +e emul d (k + pow2 i * bval bs) R) (cpm s acc')) /\
    accdep Se acc' /\ (newP Se acc \/ Exists (fun b => as_const b <> Some 0) bits -> newP Se acc') /\
    (Forall nonconst bits -> bump S0 S1 (5 * length bits) (5 * length bits))).
Proof.
  intros HSe HR bits. induction bits as [|b bits IH]; intros es acc S0 i k HS HI Hl Gb Sb Ge Ne Ga Da bs Eb HV.
  - cbn [acc_loop]. apply wp_ret. split; auto. split; [|split; [auto|split]].
    + intros Hm. specialize (Eb Hm). inversion Eb; subst bs. cbn [bval]. rewrite Z.mul_0_r, Z.add_0_r. now apply HV.
    + intros [|X]; auto. inversion X.
    + intros _. cbn. split; lia.
  - destruct es as [|e es]; [discriminate|]. cbn [acc_loop]. cbn [length] in Hl. injection Hl as Hl.
    rewrite Forall_cons_iff in Gb, Ge, Ne. destruct Gb as [Gb1 Gb], Ge as [Ge1 Ge], Ne as [Ne1 Ne].
    assert (Ge0 : goodP md s S0 e) by (eapply goodP_incl; eauto).
    assert (NY : nonconst (csub (py e) (py acc)) /\ nonconst (csub (px e) (px acc))).
    { destruct Da as [-> | [D1 D2]].
      - split; cbn [zeroP px py]; apply (nc_sub_const Se); try apply Ge1; apply Ne1.
      - split; (apply (newdep_nonconst s Se); auto; apply (newdep_sub_r Hp); auto; apply Ge1). }
    destruct NY as [NY NX].
    assert (SB : md <> Setup -> sub (emul d (pow2 i) R)) by (intros; apply (sub_em _ K); auto).
    assert (SA : md <> Setup -> sub (emul d k R)) by (intros; apply (sub_em _ K); auto).
    eapply wp_use; [apply (wp_cm_add_gen Hp d A B Hm1 Hd HM md s S0 acc e); auto|].
    { unfold nonconst in NX. congruence. }
    { intros Hm. assert (Hm' : md <> Setup) by congruence. destruct (HV Hm') as [[V1 V2] V3]. exact (acc_neq _ K _ _ _ _ (SA Hm') (SB Hm') V3 V1). }
    intros S1 inc I1 [Gi [Ei [Ni [_ Bi]]]]. lift I1.
    assert (Ri : md <> Setup -> mrel A B (T2 +e emul d (k + pow2 i) R) (cpm s inc)).
    { intros Hm. destruct (HV Hm) as [[V1 V2] V3]. rewrite (Ei Hm) by exact (acc_neq _ K _ _ _ _ (SA Hm) (SB Hm) V3 V1).
      rewrite (em_add _ K) by apply (HR Hm). apply (acc_chord _ K); auto. }
    assert (BB : md <> Setup -> exists b0 bs', bs = b0 :: bs' /\ ceval s b = nbool b0 /\ ebits s bits bs').
    { intros Hm. specialize (Eb Hm). inversion Eb; subst. eauto. }
    assert (Gb1' : good md s S1 b) by assumption.
    eapply wp_use; [apply (wp_cp_switch _ K md s S1 inc b acc); auto|].
    { intros Hm. destruct BB as [b0 [bs' [_ [X _]]]]; [congruence|]. rewrite X. apply isbit_nbool. }
    { intros Hm. specialize (Sb Hm). rewrite Forall_cons_iff in Sb. apply Sb. }
    { apply (newdep_nonconst s S0); auto. apply (newdep_sub_l Hp); [apply Ni|apply Ga]. }
    { apply (newdep_nonconst s S0); auto. apply (newdep_sub_l Hp); [apply Ni|apply Ga]. }
    intros S2 acc2 I2 [G2 [E21 [E20 [N2 [C21 C20]]]]]. lift I2.
    assert (D2 : accdep Se acc2 /\ (newP Se acc \/ as_const b <> Some 0 -> newP Se acc2)).
    { assert (NI : newP Se inc) by (eapply newP_incl; eauto).
      destruct (as_const b) as [v|] eqn:Ebv.
      - assert (HB : v = 1 \/ v = 0).
        { destruct md.
          - destruct BB as [b0 [bs' [_ [X _]]]]; [congruence|]. rewrite (as_const_eval s b v (proj2 HS) Ebv) in X. destruct b0; cbn in X; auto.
          - destruct BB as [b0 [bs' [_ [X _]]]]; [congruence|]. rewrite (as_const_eval s b v (proj2 HS) Ebv) in X. destruct b0; cbn in X; auto.
          - specialize (Sb eq_refl). rewrite Forall_cons_iff in Sb. destruct (proj1 Sb v Ebv); auto. }
        destruct HB as [-> | ->].
        + destruct (C21 eq_refl) as [-> _]. split; [now right|auto].
        + destruct (C20 eq_refl) as [-> _]. split; [auto|]. intros [|X]; auto. congruence.
      - destruct (N2 Ebv) as [X _]. assert (newP Se acc2) by (eapply newP_incl; [|exact X]; inclt). split; [now right|auto]. }
    destruct D2 as [D2 D2'].
    eapply wp_mono.
    { apply (IH es acc2 S2 (S i) (k + pow2 i * match bs with b0 :: _ => Z.b2z b0 | [] => 0 end)%Z) with (bs := tl bs); auto.
      - inclt.
      - eapply Forall_impl; [|exact Gb]. intros c Gc. eapply good_incl; [exact Gc|inclt].
      - intros Hm. specialize (Sb Hm). rewrite Forall_cons_iff in Sb. apply Sb.
      - intros Hm. destruct (BB Hm) as [b0 [bs' [-> [X Y]]]]. exact Y.
      - intros Hm. destruct (BB Hm) as [b0 [bs' [-> [X Y]]]]. destruct (HV Hm) as [[V1 V2] V3]. split; auto.
        destruct b0; cbn [Z.b2z nbool] in *.
        + rewrite Z.mul_1_r. rewrite (E21 Hm X). auto.
        + rewrite Z.mul_0_r, Z.add_0_r. rewrite (E20 Hm X). auto. }
    intros S3 acc3 I3 [G3 [E3 [D3 [N3 B3]]]]. split; auto. split; [|split; [auto|split]].
    + intros Hm. destruct (BB Hm) as [b0 [bs' [-> [X Y]]]]. specialize (E3 Hm). cbn [tl] in E3. rewrite pow2_S in E3. cbn [bval].
      replace (k + pow2 i * (Z.b2z b0 + 2 * bval bs'))%Z with (k + pow2 i * Z.b2z b0 + 2 * pow2 i * bval bs')%Z by ring. exact E3.
    + intros [X|X]; apply N3; [left; auto|]. inversion X; subst; [left; auto|right; auto].
    + intros NN. rewrite Forall_cons_iff in NN. destruct NN as [Nb NN]. specialize (Bi NX). destruct (N2 Nb) as [_ B2]. specialize (B3 NN).
      cbn [length]. destruct Bi, B2, B3; split; lia.
Qed.

Definition somebit (b : CNum p) : Prop := as_const b <> Some 0.

Lemma wp_ce_mul_var md s S0 (P : CPoint p) bits bs :
  okS s S0 -> goodP md s S0 P -> ncP P -> Forall (good md s S0) bits ->
  (md = Setup -> Forall (fun b => forall v, as_const b = Some v -> isbit v) bits) ->
  Exists somebit bits -> (md <> Setup -> ebits s bits bs) -> (md <> Setup -> sub (cpe s P)) ->
  wp md s S0 (ce_mul_var J P bits) (fun S1 R =>
    goodP md s S1 R /\ (md <> Setup -> cpe s R = emul d (bval bs) (cpe s P)) /\
    newP S0 R /\ newdep S0 (cadd_cap (px R) (py R)) /\
    (Forall nonconst bits -> bump S0 S1 (9 * length bits + 10) (9 * length bits + 10))).
Proof.
  intros HS GP NP Gb Sb Xb Eb SP. unfold ce_mul_var.
  destruct GP as [GPx GPy]. destruct NP as [NPx NPy].
  eapply wp_use; [apply (wp_is_zero_nc Hp md s S0 (px P)); auto|]. intros S1 biz I1 [[Gz Ez] [Nz [B1 _]]]. lift I1.
  assert (IZ : md = Honest -> isbit (ceval s biz)) by (intros Hm; rewrite Ez by congruence; apply isbit_nbool).
  assert (IZ' : md = Setup -> forall v, as_const biz = Some v -> isbit v) by (intros _ v; unfold nonconst in Nz; congruence).
  eapply wp_use; [apply (wp_cp_switch _ K md s S1 (cp_from_const (ex (jg J)) (ey (jg J))) biz P); auto|].
  { split; apply good_const; auto. }
  { split; auto. }
  { apply (nc_const_sub Hp S0); auto; apply GPx. }
  { apply (nc_const_sub Hp S0); auto; apply GPy. }
  intros S2 bp I2 [Gbp [E21 [E20 [N2 _]]]]. lift I2. destruct (N2 Nz) as [Nbp B2]. clear N2.
  set (R := if nis_zero (ceval s (px P)) then jg J else cpe s P).
  assert (HR : md <> Setup -> sub R /\ R <> e_zero /\ cpe s bp = R).
  { intros Hm. specialize (Ez Hm). specialize (SP Hm). unfold R. destruct (nis_zero (ceval s (px P))) eqn:E; cbn [nbool] in Ez.
    - split; [apply (sub_g _ K)|]. split; [apply (j_g0 _ K)|]. pose proof (E21 Hm Ez) as X.
      apply e_ext; cbn [cpe ex ey]; [apply (f_equal mx) in X|apply (f_equal my) in X]; cbn in X; rewrite X, ceval_const; auto; apply HS.
    - split; auto. split.
      + intros X. apply nis_zero_neq in E. apply E. change (ex (cpe s P) = 0). rewrite X. reflexivity.
      + pose proof (E20 Hm Ez) as X. apply e_ext; cbn [cpe ex ey]; [exact (f_equal mx X)|exact (f_equal my X)]. }
  eapply wp_use; [apply (wp_ce_into_montgomery Hp d A B Hm1 Hd HM md s S2 bp); auto|].
  { apply (newP_ncP s S1); auto. }
  { intros Hm. destruct (HR Hm) as [R1 [R2 ->]]. split; [apply R1|now apply (sub_x _ K)]. }
  intros S3 bm I3 [Gbm [Ebm [Nbm B3]]]. lift I3.
  assert (Rbm : md <> Setup -> mrel A B (emul d (pow2 0) R) (cpm s bm)).
  { intros Hm. destruct (HR Hm) as [R1 [R2 R3]]. change (pow2 0) with 1%Z. rewrite (em_1 _ K) by apply R1. rewrite <- R3. auto. }
  pose proof (newP_ncP s S2 bm ltac:(assumption) Nbm) as Cbm.
  eapply wp_use; [apply (wp_exponents md s R (fun Hm => proj1 (HR Hm)) (length bits - 1) 0 bm S3); auto|].
  intros S4 es I4 [Le [Ge [Ne [Re B4]]]]. lift I4. cbv zeta.
  assert (Lb : length bits = S (length bits - 1)) by (destruct bits; [inversion Xb|cbn; lia]).
  eapply wp_use; [apply (wp_acc_loop md s S4 R) with (bits := bits) (es := bm :: es) (acc := zeroP) (S0 := S4) (i := 0%nat) (k := 0%Z) (bs := bs); auto|].
  { intros Hm. apply (HR Hm). }
  { apply incl_refl. }
  { cbn [length]. lia. }
  { eapply Forall_impl; [|exact Gb]. intros c Gc. eapply good_incl; [exact Gc|inclt]. }
  { split; apply good_const; auto. }
  { now left. }
  { intros Hm. split; [split; auto|]. rewrite (em_0 _ K), (ad_0r _ K) by apply (oncT2 _ K).
    unfold cpm, zeroP; cbn [px py]. rewrite !ceval_zero. apply (mrel_T2 _ K). }
  intros S5 acc I5 [Gacc [Eacc [_ [Nacc B5]]]]. lift I5.
  assert (Nacc' : newP S4 acc) by (apply Nacc; now right).
  destruct (newP_ncP s S4 acc ltac:(assumption) Nacc') as [Nx Ny].
  eapply wp_use; [apply (wp_cp_switch _ K md s S5 zeroP biz acc); auto|].
  { split; apply good_const; auto. }
  { apply (nc_const_sub Hp S5); auto; apply Gacc. }
  { apply (nc_const_sub Hp S5); auto; apply Gacc. }
  intros S6 acc2 I6 [G6 [E61 [E60 [N6 _]]]]. lift I6. destruct (N6 Nz) as [Nacc2 B6]. clear N6.
  set (Q := if nis_zero (ceval s (px P)) then T2 else T2 +e emul d (bval bs) (cpe s P)).
  assert (HQ : md <> Setup -> onc Q /\ mrel A B Q (cpm s acc2)).
  { intros Hm. specialize (Ez Hm). unfold Q. specialize (Eacc Hm). unfold R in Eacc. destruct (nis_zero (ceval s (px P))) eqn:E; cbn [nbool] in Ez.
    - split; [apply (oncT2 _ K)|]. rewrite (E61 Hm Ez). unfold cpm, zeroP; cbn [px py]. rewrite !ceval_zero. apply (mrel_T2 _ K).
    - split; [apply (onc_T2ad _ K), (onc_em _ K), (SP Hm)|]. rewrite (E60 Hm Ez). change (pow2 0) with 1%Z in Eacc.
      rewrite Z.mul_1_l, Z.add_0_l in Eacc. exact Eacc. }
  eapply wp_use; [apply (wp_cm_into_edwards Hp d A B Hm1 Hd HM md s S6 acc2); auto|].
  { apply (newP_ncP s S5); auto. }
  { intros Hm. apply (HQ Hm). }
  intros S7 r I7 [G7 [E7 [N7 [M7 B7]]]]. lift I7.
  assert (M7' : newdep S6 (cadd_cap (cneg (px r)) (cneg (py r)))).
  { destruct M7 as [j [Hj Cj]]. exists j. split; auto. rewrite ccoef_add_cap, !ccoef_neg in *. intros X. apply Cj.
    transitivity (- (- ccoef (px r) j + - ccoef (py r) j)); [ring|]. rewrite X. ring. }
  apply wp_ret. split; [split; apply good_neg; apply G7|]. split; [|split; [|split]].
  - intros Hm. destruct (HQ Hm) as [Q1 Q2]. pose proof (E7 Hm) as X. rewrite (unmont_mrel Hp d A B Hm1 Hd HM Q _ Q1 Q2) in X.
    transitivity (T2 +e Q).
    + rewrite (T2_ad _ K) by auto. rewrite <- X. apply e_ext; cbn [cpe ex ey px py]; apply ceval_neg.
    + unfold Q. destruct (nis_zero (ceval s (px P))) eqn:E.
      * rewrite (T2_double Hp d Hm1 Hd). apply nis_zero_eq in E. 
        destruct (num_eq_dec (ex (cpe s P)) 0) as [_|X2]; [|now destruct X2]. destruct (onc_x0 Hp d Hm1 Hd (cpe s P) (proj1 (SP Hm)) E) as [->|X3].
        -- symmetry. apply (em_zero _ K).
        -- exfalso. apply (T2_not_sub _ K). rewrite <- X3. auto.
      * apply (T2T2 _ K). apply (onc_em _ K), (SP Hm).
  - apply (newP_incl S0 S6); [inclt|]. split; apply (newdep_neg Hp); apply N7.
  - apply (newdep_incl S0 S6); [inclt|]. exact M7'.
  - intros NN. specialize (B5 NN). destruct B1, B2, B3, B4, B5, B6, B7. split; lia.
Qed.
End Var.
