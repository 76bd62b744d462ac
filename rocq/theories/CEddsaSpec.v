(** Circuit signature verification (circuit/eddsaposeidon.rs:15-45). *)

From Verif Require Export PoseidonSpec PoseidonCount.
From Verif Require Export CEccFrom Eddsa.
From Coq Require Import Lia.
Open Scope num_scope.

(** Bits produced by the decomposition are independent. *)
Section Indep.
Context {p : positive} (Hp : prime (Zpos p)).
Notation F := (Num p).
Add Field in_field : (num_field Hp) (morphism (@num_morph p), constants [num_cst], power_tac (@num_power p) [num_pow_cst]).
Set Default Proof Using "Type*".

Definition isv (c : CNum p) (i : Index) : Prop := clc c = [(i, 1)].
Lemma isv_coef c i j : isv c i -> ccoef c j = if ieqb i j then 1 else 0.
Proof. intros E. unfold ccoef. rewrite E, coef_cons, coef_nil. destruct ieqb; ring. Qed.
Lemma isv_coef_eq c i : isv c i -> ccoef c i = 1.
Proof. intros E. rewrite (isv_coef c i i E), (proj2 (ieqb_eq i i) eq_refl). reflexivity. Qed.
Lemma isv_coef_neq c i j : isv c i -> i <> j -> ccoef c j = 0.
Proof. intros E N. rewrite (isv_coef c i j E), (proj2 (ieqb_neq i j) N). reflexivity. Qed.
Lemma isv_nc c i : isv c i -> i <> I0 -> nonconst c.
Proof. intros E N. apply (coef_nonconst c i N). rewrite (isv_coef_eq c i E). apply (n1_neq_n0 Hp). Qed.

(** A signal with a private index, followed by variables. *)
Lemma indep3_of b0 v1 v2 i0 i1 i2 : i0 <> I0 -> ccoef b0 i0 <> 0 -> isv v1 i1 -> isv v2 i2 ->
  i1 <> I0 -> i2 <> I0 -> i1 <> i2 -> i1 <> i0 -> i2 <> i0 -> indep3 b0 v1 v2.
Proof.
  intros N0 C0 V1 V2 N1 N2 D12 D1 D2 k0 k1 k2 H.
  assert (Z0 : k0 = 0).
  { specialize (H i0 N0). rewrite (isv_coef_neq v1 i1 i0), (isv_coef_neq v2 i2 i0) in H by auto.
    apply (nmul_cancel_l Hp (ccoef b0 i0)); auto. transitivity (k0 * ccoef b0 i0 + k1 * 0 + k2 * 0); [ring|]. rewrite H. ring. }
  split; auto. subst k0. split.
  - specialize (H i1 N1). rewrite (isv_coef_eq v1 i1), (isv_coef_neq v2 i2 i1) in H by auto.
    transitivity (0 * ccoef b0 i1 + k1 * 1 + k2 * 0); [ring|]. exact H.
  - specialize (H i2 N2). rewrite (isv_coef_neq v1 i1 i2), (isv_coef_eq v2 i2) in H by auto.
    transitivity (0 * ccoef b0 i2 + k1 * 0 + k2 * 1); [ring|]. exact H.
Qed.
Lemma indep2_of b0 v1 i0 i1 : i0 <> I0 -> ccoef b0 i0 <> 0 -> isv v1 i1 -> i1 <> I0 -> i1 <> i0 -> indep2 b0 v1.
Proof.
  intros N0 C0 V1 N1 D1 k0 k1 H.
  assert (Z0 : k0 = 0).
  { specialize (H i0 N0). rewrite (isv_coef_neq v1 i1 i0) in H by auto.
    apply (nmul_cancel_l Hp (ccoef b0 i0)); auto. transitivity (k0 * ccoef b0 i0 + k1 * 0); [ring|]. rewrite H. ring. }
  split; auto. subst k0. specialize (H i1 N1). rewrite (isv_coef_eq v1 i1) in H by auto.
  transitivity (0 * ccoef b0 i1 + k1 * 1); [ring|]. exact H.
Qed.

Definition isvs (vs : list (CNum p)) (ids : list Index) : Prop := Forall2 isv vs ids /\ NoDup ids /\ ~ In I0 ids.
Lemma isvs_cons v vs ids : isvs (v :: vs) ids -> exists i ids', ids = i :: ids' /\ isv v i /\ i <> I0 /\ ~ In i ids' /\ isvs vs ids'.
Proof.
  intros [H [N Z]]. inversion H as [|? i ? ids' E1 E2]; subst. inversion N; subst. exists i, ids'. cbn [In] in Z.
  repeat split; auto.
Qed.

Lemma wreg_vars n : forall vs ids m, isvs vs ids -> (length vs + m = 3 * n)%nat -> (m <= 2)%nat ->
  wreg n (vs ++ repeat (cbconst false) m).
Proof.
  pose proof (n1_neq_n0 Hp) as N10.
  induction n as [|n IH]; intros vs ids m Hv Hl Hm; cbn [wreg]; auto.
  destruct vs as [|v0 vs]; [cbn in Hl; lia|]. apply isvs_cons in Hv. destruct Hv as [i0 [ids0 [-> [V0 [N0 [D0 Hv]]]]]].
  destruct vs as [|v1 vs].
  { cbn [length] in Hl. assert (m = 2)%nat as -> by lia. cbn [app repeat]. split; [|assert (n = 0)%nat as -> by lia; exact I].
    right; right. exists (nbool false), (nbool false). split; apply as_const_cconst. }
  apply isvs_cons in Hv. destruct Hv as [i1 [ids1 [-> [V1 [N1 [D1 Hv]]]]]].
  destruct vs as [|v2 vs].
  { cbn [length] in Hl. assert (m = 1)%nat as -> by lia. cbn [app repeat]. split; [|assert (n = 0)%nat as -> by lia; exact I].
    right; left. split; [now apply (isv_nc v0 i0)|]. split; [now apply (isv_nc v1 i1)|]. exists (nbool false). apply as_const_cconst. }
  apply isvs_cons in Hv. destruct Hv as [i2 [ids2 [-> [V2 [N2 [D2 Hv]]]]]].
  cbn [app]. split.
  - left. cbn [In] in D0, D1. apply (indep3_of v0 v1 v2 i0 i1 i2); auto; try (intros ->; tauto). rewrite (isv_coef_eq v0 i0); auto.
  - apply (IH vs ids2 m); auto. cbn [length] in Hl. lia.
Qed.
Lemma bfirst_vars vs ids : isvs vs ids -> (2 <= length vs)%nat -> bfirst vs.
Proof.
  pose proof (n1_neq_n0 Hp) as N10. intros Hv L.
  destruct vs as [|v0 vs]; [cbn in L; lia|]. apply isvs_cons in Hv. destruct Hv as [i0 [ids0 [-> [V0 [N0 [D0 Hv]]]]]].
  destruct vs as [|v1 vs]; [cbn in L; lia|]. apply isvs_cons in Hv. destruct Hv as [i1 [ids1 [-> [V1 [N1 [D1 Hv]]]]]].
  destruct vs as [|v2 vs]; cbn [bfirst].
  - cbn [In] in D0. apply (indep2_of v0 v1 i0 i1); auto; try (intros ->; tauto). rewrite (isv_coef_eq v0 i0); auto.
  - apply isvs_cons in Hv. destruct Hv as [i2 [ids2 [-> [V2 [N2 [D2 Hv]]]]]].
    cbn [In] in D0, D1. apply (indep3_of v0 v1 v2 i0 i1 i2); auto; try (intros ->; tauto). rewrite (isv_coef_eq v0 i0); auto.
Qed.

Section Bits.
Context (s : Index -> F) (S0 S1 : st) (x : CNum p) (bits : list (CNum p)).
Hypothesis HS : okS s S0.
Hypothesis Hw : wf S0 x.
Hypothesis Hn : nonconst x.
Hypothesis HB : bits_post S0 S1 x bits.
Lemma bits_shape : exists b0 vs ids i0, bits = b0 :: vs /\ isvs vs ids /\ i0 <> I0 /\ ccoef b0 i0 <> 0 /\ ~ In i0 ids.
Proof.
  destruct HB as [b0 [vs [ids [E [FV Hid]]]]]. destruct (nc_coef S0 x Hw Hn) as [i [Hi Ci]].
  assert (Hin : In i (su S0)).
  { destruct (in_dec ieq_dec i (su S0)) as [|N]; auto. exfalso. apply Ci. exact (wf_coef_fresh S0 x i Hw N). }
  exists b0, vs, ids, i. split; auto. pose proof FV as [F1 [F2 F3]].
  split; [|split; [auto|split]].
  - split; [exact F1|]. split; [exact F2|]. intros X. apply (F3 I0 X). apply HS.
  - rewrite (bits_post_coef Hp S0 S1 x b0 vs ids FV Hid i Hin). exact Ci.
  - intros X. exact (proj1 (F3 i X) Hin).
Qed.
Lemma bits_first : (2 <= length bits)%nat -> bfirst bits.
Proof.
  intros L. destruct bits_shape as [b0 [vs [ids [i0 [E [Hv [N0 [C0 D0]]]]]]]]. rewrite E in *.
  destruct vs as [|v1 vs]; [cbn in L; lia|]. apply isvs_cons in Hv. destruct Hv as [i1 [ids1 [-> [V1 [N1 [D1 Hv]]]]]].
  cbn [In] in D0. destruct vs as [|v2 vs]; cbn [bfirst].
  - apply (indep2_of b0 v1 i0 i1); auto; intros ->; tauto.
  - apply isvs_cons in Hv. destruct Hv as [i2 [ids2 [-> [V2 [N2 [D2 Hv]]]]]]. cbn [In] in D0, D1.
    apply (indep3_of b0 v1 v2 i0 i1 i2); auto; intros ->; tauto.
Qed.
Lemma bits_wreg n m : (length bits + m = 3 * n)%nat -> (m <= 2)%nat -> wreg n (bits ++ repeat (cbconst false) m).
Proof.
  intros L M. destruct bits_shape as [b0 [vs [ids [i0 [E [Hv [N0 [C0 D0]]]]]]]]. rewrite E in *.
  destruct n as [|n]; cbn [wreg]; auto.
  destruct vs as [|v1 vs].
  { cbn [length] in L. assert (m = 2)%nat as -> by lia. cbn [app repeat]. split; [|assert (n = 0)%nat as -> by lia; exact I].
    right; right. exists (nbool false), (nbool false). split; apply as_const_cconst. }
  apply isvs_cons in Hv. destruct Hv as [i1 [ids1 [-> [V1 [N1 [D1 Hv]]]]]].
  destruct vs as [|v2 vs].
  { cbn [length] in L. assert (m = 1)%nat as -> by lia. cbn [app repeat]. split; [|assert (n = 0)%nat as -> by lia; exact I].
    right; left. split; [now apply (coef_nonconst b0 i0)|]. split; [now apply (isv_nc v1 i1)|]. exists (nbool false). apply as_const_cconst. }
  apply isvs_cons in Hv. destruct Hv as [i2 [ids2 [-> [V2 [N2 [D2 Hv]]]]]].
  cbn [app]. split.
  - left. cbn [In] in D0, D1. apply (indep3_of b0 v1 v2 i0 i1 i2); auto; intros ->; tauto.
  - apply (wreg_vars n vs ids2 m); auto. cbn [length] in L. lia.
Qed.
End Bits.

Lemma wcost_val n : forall (bits : list (CNum p)) m, Forall nonconst bits -> (length bits + m = 3 * n)%nat -> (m <= 2)%nat ->
  (wcost n (bits ++ repeat (cbconst false) m) + (match m with 0 => 0 | 1 => 2 | _ => 3 end) = 6 * n)%nat.
Proof.
  induction n as [|n IH]; intros bits m N L M.
  - cbn [wcost]. destruct m; cbn; lia.
  - destruct bits as [|b0 [|b1 [|b2 bits]]]; cbn [length] in L; try lia.
    + assert (m = 2)%nat as -> by lia. assert (n = 0)%nat as -> by lia. reflexivity.
    + assert (m = 1)%nat as -> by lia. assert (n = 0)%nat as -> by lia. cbn [app repeat wcost].
      rewrite !Forall_cons_iff in N. destruct N as [_ [N1 _]]. unfold nonconst in N1. rewrite N1. reflexivity.
    + cbn [app wcost]. rewrite !Forall_cons_iff in N. destruct N as [_ [_ [N2 N]]]. unfold nonconst in N2. rewrite N2.
      specialize (IH bits m N ltac:(lia) M). lia.
Qed.
End Indep.

Section SubX.
Context {p l : positive} (J : JubJub p l) (K : jubjub_ok J).
Let Hp := j_p _ K.
Let Hm1 := j_m1 _ K.
Let Hd := j_d _ K.
Notation d := (jd J).
Notation "P +e Q" := (eadd d P Q) (at level 50, left associativity).
Notation sub := (sub J).
Set Default Proof Using "Type*".
Opaque emul.
Lemma sub_add P Q : sub P -> sub Q -> sub (P +e Q).
Proof.
  intros [P1 P2] [Q1 Q2]. split; [now apply (onc_ad _ K)|]. rewrite (em_distr _ K), P2, Q2 by auto. apply (ad_0l _ K), (onc_z _ K).
Qed.
Lemma sub_x_inj P Q : sub P -> sub Q -> ex P = ex Q -> P = Q.
Proof.
  intros HP HQ E. destruct (same_x Hp d Hm1 Hd P Q (proj1 HP) (proj1 HQ) E) as [|X]; auto.
  exfalso. apply (T2sub_neq _ K (eneg P) Q); auto. now apply (sub_neg _ K).
Qed.

End SubX.

Section Verify.
Context {p l : positive} (J : JubJub p l) (K : jubjub_ok J) (L8 : (8 < Zpos l)%Z) (LB : (num_bits l < num_bits p)%nat).
Notation F := (Num p).
Let Hp := j_p _ K.
Let Hm1 := j_m1 _ K.
Let Hd := j_d _ K.
Let HM := j_mont _ K.
Notation d := (jd J).
Notation onc := (on_curve d).
Notation "P +e Q" := (eadd d P Q) (at level 50, left associativity).
Notation sub := (sub J).
Set Default Proof Using "Type*".
Implicit Types (s : Index -> F).
Opaque emul.

Add Field ve_field : (num_field Hp) (morphism (@num_morph p), constants [num_cst], power_tac (@num_power p) [num_pow_cst]).
Lemma num_sub_self (a : F) : a - a = 0.
Proof. ring. Qed.
Lemma l_bits : (4 <= num_bits l)%nat.
Proof.
  pose proof (num_bits_upper l) as U. destruct (Nat.le_gt_cases 4 (num_bits l)) as [|C]; auto. exfalso.
  assert (2 ^ Z.of_nat (num_bits l) <= 2 ^ 3)%Z by (apply Z.pow_le_mono_r; lia). change (2 ^ 3)%Z with 8%Z in *. lia.
Qed.
Variable sqrt : F -> option F.
Hypothesis Hs : sqrt_ok sqrt.
Variable P : @PoseidonParams p.
Hypothesis HP : pp_ok P.
Hypothesis HP0 : col0_nz P.
Hypothesis HPf : (2 <= ppf P)%nat.
Hypothesis HPt : (4 <= ppt P)%nat.
Hypothesis Hfb : full_bytes p = true.

Definition wshort (m : nat) : nat := match m with 0 => 0 | 1 => 2 | _ => 3 end%nat.
(** Constraints of the verification. *)
Definition eddsa_cons : nat :=
  (19 + 19 + poseidon_cost P 3 + @strict_cons p + (9 * num_bits p + 10) + num_bits l +
   (6 * nwin (num_bits l) - wshort (padding (num_bits l)) + 5) + 6 + 3)%nat.

(** The statement proved about the output. *)
Definition eddsa_eq s (sg r a m : CNum p) (PA PR : EPoint p) : Prop :=
  sub PA /\ ex PA = ceval s a /\ sub PR /\ ex PR = ceval s r.

Lemma wp_eddsa md s S0 (sg r a m : CNum p) :
  okS s S0 -> good md s S0 sg -> good md s S0 r -> good md s S0 a -> good md s S0 m ->
  nonconst sg -> nonconst r -> nonconst a -> nonconst m ->
  (md = Honest -> (nval (ceval s sg) < 2 ^ Z.of_nat (num_bits l))%Z /\
     (exists A, sub A /\ ex A = ceval s a) /\ (exists R, sub R /\ ex R = ceval s r)) ->
  wp md s S0 (c_eddsaposeidon_verify sqrt P J sg r a m) (fun S1 out =>
    good md s S1 out /\ nonconst out /\
    (md <> Setup -> (nval (ceval s sg) < 2 ^ Z.of_nat (num_bits l))%Z /\
      exists A R h (b : bool), sub A /\ ex A = ceval s a /\ sub R /\ ex R = ceval s r /\
        hash_ram P (ceval s r) (ceval s a) (ceval s m) = Ok h /\ ceval s out = nbool b /\
        (b = true <-> emul d (nval (ceval s sg)) (jg J) = emul d (nval h) A +e R)) /\
    ((forall i, (i < nwin (num_bits l))%nat -> wnd J (emul d (8 ^ Z.of_nat i) (jg J))) -> sn S1 = (sn S0 + eddsa_cons)%nat)).
Proof.
  intros HS Gs Gr Ga Gm Ns Nr Na Nm Hh. unfold c_eddsaposeidon_verify. pose proof l_bits as LB4.
  rewrite (proj2 (Nat.ltb_lt _ _) LB). cbn [passert pbind].
  assert (VN : forall c, good md s S0 c -> nonconst c -> md = Setup -> cvalue c = None).
  { intros c Gc Nc ->. apply (vok_setup_none s c); auto. apply Gc. }
  eapply wp_use; [apply (wp_ce_decompress _ K sqrt md s S0 a); auto|].
  { intros Hm. apply (Hh Hm). }
  intros S1 pa I1 [Gpa [Epa [Npa [_ B1]]]]. lift I1.
  eapply wp_use; [apply (wp_ce_decompress _ K sqrt md s S1 r); auto|].
  { intros Hm. apply (Hh Hm). }
  intros S2 pr I2 [Gpr [Epr [Npr [Mpr B2]]]]. lift I2.
  assert (SD : exists salt, from_seed SEED_EDDSA_POSEIDON = Ok (salt : F)).
  { unfold from_seed. rewrite from_binary_be_ok, Hfb by apply blake2s_bytes. eauto. }
  destruct SD as [salt SD]. rewrite SD. cbn [plift pbind].
  eapply wp_use.
  { apply wp_and.
    - apply (wp_poseidon_with_salt Hp md s S2 P [r; a; m] salt); auto. intros _. split; auto. cbn [length]. lia.
    - unfold c_poseidon_with_salt. rewrite (proj2 (Nat.ltb_lt 0 (length [r; a; m]))) by (cbn; lia).
      rewrite (proj2 (Nat.ltb_lt (length [r; a; m]) (ppt P))) by (cbn; lia). cbn [passert pbind app].
      apply (wp_poseidon_nnc Hp md s S2 P r [a; m; cconst salt]); auto; [|cbn [length]; lia].
      repeat (apply Forall_cons; [first [assumption|now apply good_const]|]). apply Forall_nil. }
  intros S3 h I3 [[Gh Eh] [_ [[j [Hj1 [Hj2 Hj3]]] B3]]]. lift I3.
  assert (Nh : nonconst h) by exact (coef_nonconst h j Hj2 Hj3).
  assert (C3 : nnc [r; a; m; cconst salt] = 3%nat) by (cbn [nnc]; unfold nonconst in *; rewrite Nr, Na, Nm; reflexivity).
  rewrite C3 in B3.
  eapply wp_use; [apply (wp_into_bits_strict Hp md s S3 h); auto; lia|].
  intros S4 hb I4 [Ghb [Lhb [Ehb [Chb _]]]]. lift I4. destruct (Chb Nh) as [Nhb [_ B4]]. clear Chb.
  assert (CA : cp_as_const pa = None).
  { unfold cp_as_const. destruct (newP_ncP s S0 pa HS Npa) as [X _]. unfold nonconst in X. now rewrite X. }
  unfold ce_mul at 1. rewrite CA.
  eapply wp_use; [apply (wp_ce_mul_var _ K md s S4 pa hb (bits_of (num_bits p) (nval (ceval s h)))); auto|].
  { exact (newP_ncP s S0 pa HS Npa). }
  { intros _. eapply Forall_impl; [|exact Nhb]. unfold nonconst. intros c X v Y. congruence. }
  { destruct hb as [|b hb]; [cbn in Lhb; lia|]. rewrite Forall_cons_iff in Nhb. left. unfold somebit. destruct Nhb as [X _]. unfold nonconst in X. congruence. }
  { intros Hm. apply (Epa Hm). }
  intros S5 ha I5 [Gha [Eha [Nha [Mha B5]]]]. lift I5. specialize (B5 Nhb). rewrite Lhb in B5.
  eapply wp_use; [apply (wp_into_bits_nc Hp md s S5 sg (num_bits l)); auto|].
  { lia. }
  { intros Hm. split; [apply (Hh Hm)|]. pose proof (num_bits_limbs p). lia. }
  { intros _. lia. }
  intros S6 sb I6 [Gsb [Lsb [Nsb [BPs [[bs [Lbs [Ebs _]]] B6]]]]]. lift I6.
  cbv zeta. unfold ce_mul. cbn [cp_as_const cp_from_const px py as_const cconst clc ieqb].
  replace (mkE (ex (jg J)) (ey (jg J))) with (jg J) by (destruct (jg J); reflexivity).
  assert (Gs5 : good md s S5 sg) by assumption. assert (H5 : okS s S5) by assumption.
  match goal with |- wp _ _ _ (pbind ?m _) _ => change m with (ce_mul_const J (jg J) sb) end.
  eapply wp_use; [apply (wp_ce_mul_const J K L8 md s S6 (jg J) sb bs); auto|].
  { apply (sub_g _ K). }
  { apply (bits_first Hp s S5 S6 sg); auto; [apply Gs5|lia]. }
  { intros Hm. apply (Ebs Hm). }
  intros S7 q I7 [Gq [Eq [_ Nq]]]. lift I7. destruct (Nq (j_g0 _ K)) as [Nq' [_ [Bq _]]]. clear Nq.
  eapply wp_use; [apply (wp_ce_add Hp d (ja J) (jb J) Hm1 Hd HM md s S7 ha pr); auto|].
  { exact (newP_ncP s S4 ha ltac:(assumption) Nha). }
  { exact (newP_ncP s S1 pr ltac:(assumption) Npr). }
  { intros Hm. split; [rewrite (Eha Hm); apply (onc_em _ K), (Epa Hm)|apply (Epr Hm)]. }
  intros S8 t I8 [Gt [Et [Nt [_ B8]]]]. lift I8.
  specialize (B8 (CEccSpec.newdep_nonconst s S4 _ ltac:(assumption) Mha) (CEccSpec.newdep_nonconst s S1 _ ltac:(assumption) Mpr)).
  assert (Gq7 : goodP md s S7 q) by assumption. assert (Gq8 : goodP md s S8 q) by assumption.
  eapply wp_mono; [apply (wp_is_zero_nc Hp md s S8 (csub (px t) (px q))); auto|].
  { apply good_sub; [apply Gt|apply Gq8]. }
  { apply (CEccSpec.newdep_nonconst s S7); auto. apply (newdep_sub_l Hp); [apply Nt|apply Gq7]. }
  intros S9 out I9 [[Gout Eout] [Nout [B9 _]]]. split; auto. split; auto. split.
  - intros Hm. destruct (Ebs Hm) as [Ebs1 Ebs2].
    assert (RB : (0 <= bval bs < 2 ^ Z.of_nat (num_bits l))%Z) by (rewrite <- Lbs; apply bval_range).
    assert (PB : (2 ^ Z.of_nat (num_bits l) <= Zpos p)%Z).
    { transitivity (2 ^ (Z.of_nat (num_bits p) - 1))%Z; [apply Z.pow_le_mono_r; lia|apply num_bits_lower]. }
    assert (VS : nval (ceval s sg) = bval bs) by (rewrite Ebs2; apply nval_num_small; lia).
    split; [lia|]. destruct (Epa Hm) as [A1 A2]. destruct (Epr Hm) as [R1 R2].
    exists (cpe s pa), (cpe s pr), (ceval s h), (nis_zero (ceval s (csub (px t) (px q)))).
    split; auto. split; auto. split; auto. split; auto. split; [|split; [exact (Eout Hm)|]].
    + unfold hash_ram. rewrite SD. cbn [rbind]. exact (Eh Hm).
    + rewrite VS, nis_zero_eq, ceval_sub. specialize (Eq Hm). specialize (Et Hm). rewrite (Eha Hm) in Et.
      replace (bval (bits_of (num_bits p) (nval (ceval s h)))) with (nval (ceval s h)) in Et.
      2:{ rewrite bval_bits_of. symmetry. apply Z.mod_small. pose proof (nval_range (ceval s h)). pose proof (num_bits_upper p). lia. }
      assert (SX : sub (cpe s t)) by (rewrite Et; apply (sub_add _ K); auto; now apply (sub_em _ K)).
      assert (SY : sub (cpe s q)) by (rewrite Eq; apply (sub_em _ K), (sub_g _ K)).
      rewrite <- Et, <- Eq. split.
      * intros Z. symmetry. apply (sub_x_inj _ K); auto. exact (sub_eq0 Hp _ _ Z).
      * intros Z. change (ex (cpe s t) - ex (cpe s q) = 0). rewrite Z. apply num_sub_self.
  - intros W. assert (LN : (num_bits l + padding (num_bits l) = 3 * nwin (num_bits l))%nat).
    { destruct (padding_ok (num_bits l)) as [k Hk]. unfold nwin. rewrite Hk, Nat.mul_comm, Nat.div_mul; lia. }
    assert (PM : (padding (num_bits l) <= 2)%nat).
    { unfold padding. pose proof (Nat.mod_upper_bound (3 - num_bits l mod 3) 3 ltac:(lia)). lia. }
    first [rewrite Lsb in Bq|change (@length (CNum p) sb = num_bits l) in Lsb; rewrite Lsb in Bq|change (@length (CBool p) sb = num_bits l) in Lsb; rewrite Lsb in Bq].
    destruct Bq as [Bq1 Bq2]; auto.
    { apply (bits_wreg Hp s S5 S6 sg); auto; [apply Gs5|exact (eq_trans (f_equal (fun n => (n + padding (num_bits l))%nat) Lsb) LN)]. }
    pose proof (wcost_val Hp (nwin (num_bits l)) sb (padding (num_bits l)) Nsb ltac:(exact (eq_trans (f_equal (fun n => (n + padding (num_bits l))%nat) Lsb) LN)) PM) as WC.
    unfold eddsa_cons, wshort, strict_cons in *. destruct B1, B2, B3, B4, B5, B6, B8, B9.
    repeat match goal with H : sn _ = _ |- _ => rewrite H end. 
    set (w := wcost _ _) in *. destruct (padding (num_bits l)) as [|[|[|]]]; lia.
Qed.
End Verify.
