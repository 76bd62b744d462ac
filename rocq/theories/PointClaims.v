(** Claims about point data and its encodings: C51, C54. *)

From Verif Require Export PointData CodecSpec Primality FieldTheory.
From Verif Require Export CertBnq CertBls.
From Coq Require Import Znumtheory Lia.
Open Scope Z_scope.

Lemma is_zero_eq {q} (a : Num q) : nis_zero a = true <-> a = n0.
Proof. apply nis_zero_eq. Qed.
Lemma q2_ext {q} (a b : Fq2 q) : c0 a = c0 b -> c1 a = c1 b -> a = b.
Proof. destruct a, b; cbn; intros -> ->; reflexivity. Qed.
Lemma q2eqb_eq {q} (a b : Fq2 q) : q2eqb a b = true <-> a = b.
Proof.
  unfold q2eqb. rewrite andb_true_iff, !neqb_eq. split; [intros [A B]; now apply q2_ext|]. intros ->; auto.
Qed.
Lemma q2zero_eq {q} (a : Fq2 q) : q2is_zero a = true <-> a = q2zero.
Proof.
  unfold q2is_zero. rewrite andb_true_iff, !nis_zero_eq. split; [intros [A B]; now apply q2_ext|]. intros ->; auto.
Qed.

(** Montgomery constants *)
Lemma from_raw_eq {q : positive} ls v : prime (Zpos q) -> 2 ^ (64 * Z.of_nat (length ls)) mod Zpos q <> 0 ->
  (v * 2 ^ (64 * Z.of_nat (length ls))) mod Zpos q = repr_val ls mod Zpos q -> (from_raw ls : Num q) = num v.
Proof.
  intros Hq HR E. unfold from_raw, fdiv. set (R := 2 ^ (64 * Z.of_nat (length ls))) in *.
  assert (N : (num R : Num q) <> n0).
  { intros X. apply (f_equal nval) in X. rewrite nval_num in X. unfold n0 in X. rewrite nval_num, Zmod_0_l in X. contradiction. }
  assert (V : (num (repr_val ls) : Num q) = nmul (num v) (num R)) by (rewrite <- num_mul; apply num_eq_mod; now rewrite E).
  rewrite V, <- (Rmul_assoc (@num_ring q)), (Rmul_comm (@num_ring q) (num R)), (finv_l Hq) by exact N.
  rewrite (Rmul_comm (@num_ring q)). apply (Rmul_1_l (@num_ring q)).
Qed.

(* C51 *)
(** What the conversions accept, and the point they give. *)
Definition curve1 {q} (b x y : Num q) : Prop := nmul y y = nadd (nmul (nmul x x) x) b.
Definition curve2 {q} (b x y : Fq2 q) : Prop := q2mul y y = q2add (q2mul (q2mul x x) x) b.

Lemma g1_curve_spec {q} (b x y : Num q) :
  match g1_curve b (x, y) with
  | Ok a => (x = n0 /\ y = n0 /\ a = mkAff n0 n0 true) \/ (~ (x = n0 /\ y = n0) /\ curve1 b x y /\ a = mkAff x y false)
  | Panic => ~ (x = n0 /\ y = n0) /\ ~ curve1 b x y
  end.
Proof.
  unfold g1_curve. destruct (nis_zero x && nis_zero y) eqn:Z1.
  - apply andb_true_iff in Z1. rewrite !nis_zero_eq in Z1. destruct Z1 as [-> ->]. cbn. left. auto.
  - assert (N : ~ (x = n0 /\ y = n0)). { intros [-> ->]. rewrite (proj2 (nis_zero_eq (n0 : Num q)) eq_refl) in Z1. discriminate. }
    unfold is_on_curve. cbn [fq kmul kadd keqb]. cbv zeta. unfold curve1.
    destruct (neqb (nmul y y) (nadd (nmul (nmul x x) x) b)) eqn:E; cbn [rassert rbind].
    + right. split; [exact N|]. split; [now apply neqb_eq|reflexivity].
    + split; [exact N|]. intros C. apply neqb_eq in C. congruence.
Qed.
Lemma g2_curve_spec {q} (b : Fq2 q) (d : G2Data q) :
  let x := mkFq2 (snd (fst d)) (fst (fst d)) in let y := mkFq2 (snd (snd d)) (fst (snd d)) in
  match g2_curve b d with
  | Ok a => (x = q2zero /\ y = q2zero /\ a = mkAff q2zero q2zero true) \/ (~ (x = q2zero /\ y = q2zero) /\ curve2 b x y /\ a = mkAff x y false)
  | Panic => ~ (x = q2zero /\ y = q2zero) /\ ~ curve2 b x y
  end.
Proof.
  intros x y. unfold g2_curve. fold x. fold y. destruct (q2is_zero x && q2is_zero y) eqn:Z1.
  - apply andb_true_iff in Z1. rewrite !q2zero_eq in Z1. destruct Z1 as [Zx Zy]. cbn [is_on_curve rassert rbind]. left. rewrite Zx, Zy. auto.
  - assert (N : ~ (x = q2zero /\ y = q2zero)). { intros [Zx Zy]. rewrite (proj2 (q2zero_eq x) Zx), (proj2 (q2zero_eq y) Zy) in Z1. discriminate. }
    unfold is_on_curve. cbn [fq2 kmul kadd keqb]. cbv zeta. unfold curve2.
    destruct (q2eqb (q2mul y y) (q2add (q2mul (q2mul x x) x) b)) eqn:E; cbn [rassert rbind].
    + right. split; [exact N|]. split; [now apply q2eqb_eq|reflexivity].
    + split; [exact N|]. intros C. apply q2eqb_eq in C. congruence.
Qed.

Lemma bn_b_eq : bn_b = num 3.
Proof.
  unfold bn_b. apply from_raw_eq; [exact prime_bn_q|vm_compute; congruence|vm_compute; reflexivity].
Qed.
Lemma bls_b_eq : bls_b = num 4.
Proof.
  unfold bls_b. apply from_raw_eq; [exact prime_bls_q|vm_compute; congruence|vm_compute; reflexivity].
Qed.
Definition bn_b2_0 : Z := Eval vm_compute in (repr_val bn_b2_raw0 * powmM (Zpos bn_q) (2 ^ 256) (Z.to_pos (Zpos bn_q - 2))) mod Zpos bn_q.
Definition bn_b2_1 : Z := Eval vm_compute in (repr_val bn_b2_raw1 * powmM (Zpos bn_q) (2 ^ 256) (Z.to_pos (Zpos bn_q - 2))) mod Zpos bn_q.
Lemma bn_b2_eq : bn_b2 = mkFq2 (num bn_b2_0) (num bn_b2_1).
Proof.
  apply q2_ext; cbn [c0 c1 bn_b2]; (apply from_raw_eq; [exact prime_bn_q|vm_compute; congruence|vm_compute; reflexivity]).
Qed.
Lemma bls_b2_eq : bls_b2 = mkFq2 (num 4) (num 4).
Proof. change bls_b2 with (mkFq2 bls_b bls_b). now rewrite bls_b_eq. Qed.
Local Opaque wmul bn_b bls_b bn_b2 bls_b2.
(** The hard-coded coefficients: 3, 3 / (9 + u), 4, 4 (1 + u). *)
Lemma claim_C51_coefficients : bn_b = num 3 /\ q2mul bn_b2 (mkFq2 (num 9) (num 1)) = mkFq2 (num 3) (num 0) /\
  bls_b = num 4 /\ bls_b2 = mkFq2 (num 4) (num 4).
Proof.
  split; [exact bn_b_eq|]. split.
  - rewrite bn_b2_eq. apply q2eqb_eq. vm_compute. reflexivity.
  - split; [exact bls_b_eq|]. exact bls_b2_eq.
Qed.

(** The same point: both infinite, or the same coordinates. *)
Definition same_pt {K} (a b : Aff K) : Prop := ainf a = ainf b /\ (ainf a = false -> ax a = ax b /\ ay a = ay b).

(** The origin is not on any of the curves. *)
Lemma g1_roundtrip {q} (b : Num q) (a : Aff (Num q)) : b <> n0 -> (ainf a = false -> curve1 b (ax a) (ay a)) ->
  g1_curve b (g1_data a) = Ok (if ainf a then mkAff n0 n0 true else a).
Proof.
  intros Hb Hc. unfold g1_data. destruct a as [x y [|]]; cbn [ainf ax ay] in *.
  - pose proof (g1_curve_spec b n0 n0) as S. destruct g1_curve as [r|]; [|tauto].
    destruct S as [[_ [_ ->]]|[N _]]; [reflexivity|tauto].
  - specialize (Hc eq_refl). pose proof (g1_curve_spec b x y) as S. destruct g1_curve as [r|]; [|tauto].
    destruct S as [[-> [-> _]]|[_ [_ ->]]]; [|reflexivity]. exfalso. apply Hb. unfold curve1 in Hc.
    unfold nadd, nmul, n0 in Hc. rewrite !nval_num, !Zmod_0_l, !Z.mul_0_r, ?Zmod_0_l, ?Z.add_0_l, num_nval in Hc. symmetry. exact Hc.
Qed.
Lemma g2_roundtrip {q} (b : Fq2 q) (a : Aff (Fq2 q)) : ~ curve2 b q2zero q2zero -> (ainf a = false -> curve2 b (ax a) (ay a)) ->
  g2_curve b (g2_data a) = Ok (if ainf a then mkAff q2zero q2zero true else a).
Proof.
  intros Hb Hc. unfold g2_data. destruct a as [x y [|]]; cbn [ainf ax ay] in *.
  - pose proof (g2_curve_spec b ((n0, n0), (n0, n0))) as S. cbn [fst snd] in S. destruct g2_curve as [r|]; [|tauto].
    destruct S as [[_ [_ ->]]|[N _]]; [reflexivity|tauto].
  - specialize (Hc eq_refl). destruct x as [x0 x1], y as [y0 y1]. cbn [c0 c1].
    pose proof (g2_curve_spec b ((x1, x0), (y1, y0))) as S. cbn [fst snd] in S. destruct g2_curve as [r|]; [|tauto].
    destruct S as [[E1 [E2 _]]|[_ [_ ->]]]; [|reflexivity]. rewrite E1, E2 in Hc. contradiction.
Qed.
Lemma g1_back {q} (b : Num q) (d : G1Data q) a : g1_curve b d = Ok a -> g1_data a = d /\ (ainf a = true \/ curve1 b (ax a) (ay a)).
Proof.
  destruct d as [x y]. intros E. pose proof (g1_curve_spec b x y) as S. rewrite E in S.
  destruct S as [[-> [-> ->]]|[_ [C ->]]]; cbn; auto.
Qed.
Lemma g2_back {q} (b : Fq2 q) (d : G2Data q) a : g2_curve b d = Ok a -> g2_data a = d /\ (ainf a = true \/ curve2 b (ax a) (ay a)).
Proof.
  destruct d as [[x1 x0] [y1 y0]]. intros E. pose proof (g2_curve_spec b ((x1, x0), (y1, y0))) as S. rewrite E in S. cbn [fst snd] in S.
  destruct S as [[E1 [E2 ->]]|[_ [C ->]]]; cbn; auto. split; auto. unfold q2zero in *.
  assert (x0 = n0 /\ x1 = n0) as [-> ->] by (split; congruence). assert (y0 = n0 /\ y1 = n0) as [-> ->] by (split; congruence). reflexivity.
Qed.

(** BN256. A finite point given back is the same record; the point at infinity comes
    back with coordinates (0, 0). *)
Lemma bn_b_nz : bn_b <> n0.
Proof. rewrite bn_b_eq. intros C. apply neqb_eq in C. vm_compute in C. discriminate. Qed.
Lemma bls_b_nz : bls_b <> n0.
Proof. rewrite bls_b_eq. intros C. apply neqb_eq in C. vm_compute in C. discriminate. Qed.
Lemma bn_b2_nz : ~ curve2 bn_b2 q2zero q2zero.
Proof. unfold curve2. rewrite bn_b2_eq. intros C. apply q2eqb_eq in C. vm_compute in C. discriminate. Qed.
Lemma bls_b2_nz : ~ curve2 bls_b2 q2zero q2zero.
Proof. unfold curve2. rewrite bls_b2_eq. intros C. apply q2eqb_eq in C. vm_compute in C. discriminate. Qed.

Lemma claim_C51_bn_roundtrip : forall (a : Aff (Num bn_q)) (c : Aff (Fq2 bn_q)),
  (ainf a = false -> nmul (ay a) (ay a) = nadd (nmul (nmul (ax a) (ax a)) (ax a)) (num 3)) ->
  (ainf c = false -> q2mul (ay c) (ay c) = q2add (q2mul (q2mul (ax c) (ax c)) (ax c)) bn_b2) ->
  (exists a', bn_g1 (g1_data a) = Ok a' /\ same_pt a' a /\ (ainf a = false -> a' = a)) /\
  (exists c', bn_g2 (g2_data c) = Ok c' /\ same_pt c' c /\ (ainf c = false -> c' = c)).
Proof.
  intros a c Ha Hc. rewrite <- bn_b_eq in Ha. split.
  - eexists. split; [apply (g1_roundtrip _ _ bn_b_nz Ha)|]. destruct a as [x y [|]]; cbn; unfold same_pt; cbn; repeat split; auto; discriminate.
  - eexists. split; [apply (g2_roundtrip _ _ bn_b2_nz Hc)|]. destruct c as [x y [|]]; cbn; unfold same_pt; cbn; repeat split; auto; discriminate.
Qed.
(** BLS12-381: for points killed by the group order. *)
Lemma claim_C51_bls_roundtrip : forall (a : Aff (Num bls_q)) (c : Aff (Fq2 bls_q)),
  (ainf a = false -> nmul (ay a) (ay a) = nadd (nmul (nmul (ax a) (ax a)) (ax a)) (num 4)) ->
  (ainf c = false -> q2mul (ay c) (ay c) = q2add (q2mul (q2mul (ax c) (ax c)) (ax c)) (mkFq2 (num 4) (num 4))) ->
  wmul (fq bls_q) bls_ord (aff_pt a) = None -> wmul (fq2 bls_q) bls_ord (aff_pt c) = None ->
  (exists a', bls_g1 (g1_data a) = Ok a' /\ same_pt a' a /\ (ainf a = false -> a' = a)) /\
  (exists c', bls_g2 (g2_data c) = Ok c' /\ same_pt c' c /\ (ainf c = false -> c' = c)).
Proof.
  intros a c Ha Hc Oa Oc. rewrite <- bls_b_eq in Ha. rewrite <- bls_b2_eq in Hc. split.
  - exists (if ainf a then mkAff n0 n0 true else a). unfold bls_g1. rewrite (g1_roundtrip _ _ bls_b_nz Ha). cbn [rbind].
    assert (X : in_order (fq bls_q) bls_ord (if ainf a then mkAff n0 n0 true else a) = true).
    { unfold in_order. replace (aff_pt (if ainf a then mkAff n0 n0 true else a)) with (aff_pt a) by (unfold aff_pt; destruct (ainf a) eqn:E; cbn; rewrite ?E; auto). now rewrite Oa. }
    rewrite X. cbn [rassert rbind]. split; [reflexivity|]. clear. destruct a as [x y [|]]; cbn; unfold same_pt; cbn; repeat split; auto; discriminate.
  - exists (if ainf c then mkAff q2zero q2zero true else c). unfold bls_g2.
    rewrite (g2_roundtrip _ _ bls_b2_nz Hc). cbn [rbind].
    assert (X : in_order (fq2 bls_q) bls_ord (if ainf c then mkAff q2zero q2zero true else c) = true).
    { unfold in_order. replace (aff_pt (if ainf c then mkAff q2zero q2zero true else c)) with (aff_pt c) by (unfold aff_pt; destruct (ainf c) eqn:E; cbn; rewrite ?E; auto). now rewrite Oc. }
    rewrite X. cbn [rassert rbind]. split; [reflexivity|]. clear. destruct c as [x y [|]]; cbn; unfold same_pt; cbn; repeat split; auto; discriminate.
Qed.
(** Data that is accepted gives infinity or a point of the curve (and, for BLS12-381,
    of the subgroup), and converting back gives the same data. Everything else panics. *)
Lemma claim_C51_accepted : 
  (forall (d : G1Data bn_q) a, bn_g1 d = Ok a -> g1_data a = d /\
     (ainf a = true \/ nmul (ay a) (ay a) = nadd (nmul (nmul (ax a) (ax a)) (ax a)) (num 3))) /\
  (forall (d : G2Data bn_q) a, bn_g2 d = Ok a -> g2_data a = d /\
     (ainf a = true \/ q2mul (ay a) (ay a) = q2add (q2mul (q2mul (ax a) (ax a)) (ax a)) bn_b2)) /\
  (forall (d : G1Data bls_q) a, bls_g1 d = Ok a -> g1_data a = d /\ wmul (fq bls_q) bls_ord (aff_pt a) = None /\
     (ainf a = true \/ nmul (ay a) (ay a) = nadd (nmul (nmul (ax a) (ax a)) (ax a)) (num 4))) /\
  (forall (d : G2Data bls_q) a, bls_g2 d = Ok a -> g2_data a = d /\ wmul (fq2 bls_q) bls_ord (aff_pt a) = None /\
     (ainf a = true \/ q2mul (ay a) (ay a) = q2add (q2mul (q2mul (ax a) (ax a)) (ax a)) (mkFq2 (num 4) (num 4)))).
Proof.
  rewrite <- bls_b2_eq, <- bn_b_eq, <- bls_b_eq. split; [|split; [|split]].
  - intros d a E. apply (g1_back _ _ _ E).
  - intros d a E. apply (g2_back _ _ _ E).
  - intros d a E. unfold bls_g1 in E. destruct (g1_curve bls_b d) as [a1|] eqn:E1; [|discriminate]. cbn [rbind] in E.
    destruct (in_order _ _ a1) eqn:E2; [|discriminate]. cbn [rassert rbind] in E. assert (a = a1) as -> by congruence.
    destruct (g1_back _ _ _ E1) as [B1 B2]. split; [exact B1|]. split; [|exact B2]. unfold in_order in E2.
    destruct wmul; [discriminate|reflexivity].
  - intros d a E. unfold bls_g2 in E. destruct (g2_curve bls_b2 d) as [a1|] eqn:E1; [|discriminate]. cbn [rbind] in E.
    destruct (in_order _ _ a1) eqn:E2; [|discriminate]. cbn [rassert rbind] in E. assert (a = a1) as -> by congruence.
    destruct (g2_back _ _ _ E1) as [B1 B2]. split; [exact B1|]. split; [|exact B2]. unfold in_order in E2.
    destruct wmul; [discriminate|reflexivity].
Qed.
Lemma claim_C51_rejected : 
  (forall x y : Num bn_q, ~ (x = n0 /\ y = n0) -> nmul y y <> nadd (nmul (nmul x x) x) (num 3) -> bn_g1 (x, y) = Panic) /\
  (forall x1 x0 y1 y0 : Num bn_q, ~ (x0 = n0 /\ x1 = n0 /\ y0 = n0 /\ y1 = n0) ->
     q2mul (mkFq2 y0 y1) (mkFq2 y0 y1) <> q2add (q2mul (q2mul (mkFq2 x0 x1) (mkFq2 x0 x1)) (mkFq2 x0 x1)) bn_b2 ->
     bn_g2 ((x1, x0), (y1, y0)) = Panic) /\
  (forall x y : Num bls_q, ~ (x = n0 /\ y = n0) -> nmul y y <> nadd (nmul (nmul x x) x) (num 4) -> bls_g1 (x, y) = Panic) /\
  (forall x1 x0 y1 y0 : Num bls_q, ~ (x0 = n0 /\ x1 = n0 /\ y0 = n0 /\ y1 = n0) ->
     q2mul (mkFq2 y0 y1) (mkFq2 y0 y1) <> q2add (q2mul (q2mul (mkFq2 x0 x1) (mkFq2 x0 x1)) (mkFq2 x0 x1)) (mkFq2 (num 4) (num 4)) ->
     bls_g2 ((x1, x0), (y1, y0)) = Panic).
Proof.
  rewrite <- bls_b2_eq, <- bn_b_eq, <- bls_b_eq.
  assert (G1 : forall q (b x y : Num q), ~ (x = n0 /\ y = n0) -> nmul y y <> nadd (nmul (nmul x x) x) b -> g1_curve b (x, y) = Panic).
  { intros q b x y N C. pose proof (g1_curve_spec b x y) as S. destruct g1_curve as [a|]; [|reflexivity].
    destruct S as [[-> [-> _]]|[_ [X _]]]; [exfalso; apply N; auto|contradiction]. }
  assert (G2 : forall q (b : Fq2 q) x1 x0 y1 y0, ~ (x0 = n0 /\ x1 = n0 /\ y0 = n0 /\ y1 = n0) ->
     q2mul (mkFq2 y0 y1) (mkFq2 y0 y1) <> q2add (q2mul (q2mul (mkFq2 x0 x1) (mkFq2 x0 x1)) (mkFq2 x0 x1)) b -> g2_curve b ((x1, x0), (y1, y0)) = Panic).
  { intros q b x1 x0 y1 y0 N C. pose proof (g2_curve_spec b ((x1, x0), (y1, y0))) as S. cbn [fst snd] in S. destruct g2_curve as [a|]; [|reflexivity].
    destruct S as [[E1 [E2 _]]|[_ [X _]]]; [|contradiction]. exfalso. apply N. unfold q2zero in *. repeat split; congruence. }
  split; [intros; now apply G1|]. split; [intros; now apply G2|]. split.
  - intros x y N C. unfold bls_g1. rewrite (G1 _ _ _ _ N C). reflexivity.
  - intros x1 x0 y1 y0 N C. unfold bls_g2. rewrite (G2 _ bls_b2 _ _ _ _ N C). reflexivity.
Qed.
(** Proofs and keys are converted point by point. *)
Lemma claim_C51_proof_and_key : forall (P : Proof_ (Aff (Num bn_q)) (Aff (Fq2 bn_q))) (V : VK (Aff (Num bn_q)) (Aff (Fq2 bn_q))),
  let v1 a := ainf a = false /\ nmul (ay a) (ay a) = nadd (nmul (nmul (ax a) (ax a)) (ax a)) (num 3) in
  let v2 a := ainf a = false /\ q2mul (ay a) (ay a) = q2add (q2mul (q2mul (ax a) (ax a)) (ax a)) bn_b2 in
  (v1 (pf_a P) -> v2 (pf_b P) -> v1 (pf_c P) -> pf_of_data bn_g1 bn_g2 (pf_data P) = Ok P) /\
  (v1 (vk_alpha V) -> v2 (vk_beta V) -> v2 (vk_gamma V) -> v2 (vk_delta V) -> Forall v1 (vk_ic V) ->
     vk_of_data bn_g1 bn_g2 (vk_data V) = Ok V).
Proof.
  intros P V v1 v2.
  assert (R1 : forall a, v1 a -> bn_g1 (g1_data a) = Ok a).
  { intros a [I C]. rewrite <- bn_b_eq in C. unfold bn_g1. rewrite (g1_roundtrip _ _ bn_b_nz) by auto. now rewrite I. }
  assert (R2 : forall a, v2 a -> bn_g2 (g2_data a) = Ok a).
  { intros a [I C]. unfold bn_g2. rewrite (g2_roundtrip _ _ bn_b2_nz) by auto. now rewrite I. }
  split.
  - intros A B C. unfold pf_of_data, pf_data. cbn [pd_a pd_b pd_c]. rewrite (R1 _ A), (R2 _ B), (R1 _ C). cbn. destruct P; reflexivity.
  - intros A B C D I. unfold vk_of_data, vk_data. cbn [vd_alpha vd_beta vd_gamma vd_delta vd_ic].
    rewrite (R1 _ A), (R2 _ B), (R2 _ C), (R2 _ D). cbn [rbind].
    assert (M : rmapM bn_g1 (map g1_data (vk_ic V)) = Ok (vk_ic V)).
    { induction I as [|x l Hx _ IH]; [reflexivity|]. cbn [map rmapM]. rewrite (R1 _ Hx). cbn [rbind]. rewrite IH. reflexivity. }
    rewrite M. destruct V; reflexivity.
Qed.
(** As records, the point at infinity of the pairing crate, [(0, 1, true)], is not given back. *)
Lemma claim_C51_infinity_record_refuted : exists a : Aff (Num bn_q), ainf a = true /\ bn_g1 (g1_data a) <> Ok a.
Proof.
  exists (mkAff n0 n1 true). split; [reflexivity|]. unfold bn_g1. rewrite (g1_roundtrip _ _ bn_b_nz) by discriminate. cbn [ainf]. intros C.
  assert (Y : n0 = (n1 : Num bn_q)) by congruence. apply neqb_eq in Y. vm_compute in Y. discriminate.
Qed.
Lemma case_C51_generator : bn_g1 (num 1, num 2) = Ok (mkAff (num 1) (num 2) false) /\ bn_g1 (num 1, num 3) = Panic /\
  bls_g1 (n0, n0) = Ok (mkAff n0 n0 true) /\ bls_g1 (num 1, num 3) = Panic.
Proof.
  destruct claim_C51_rejected as [R1 [_ [R2 _]]].
  assert (N : forall (q : positive) (x y : Num q), nis_zero x = false -> ~ (x = n0 /\ y = n0)).
  { intros q x y H [-> _]. rewrite (proj2 (nis_zero_eq (n0 : Num q)) eq_refl) in H. discriminate. }
  split; [|split; [|split]].
  - pose proof (g1_roundtrip bn_b (mkAff (num 1) (num 2) false) bn_b_nz) as G. apply G. intros _. unfold curve1. rewrite bn_b_eq. apply neqb_eq. vm_compute. reflexivity.
  - apply R1; [apply N; vm_compute; reflexivity|]. intros C. apply neqb_eq in C. vm_compute in C. discriminate.
  - unfold bls_g1. pose proof (g1_roundtrip bls_b (mkAff n0 n0 true) bls_b_nz ltac:(discriminate)) as G. cbn [ainf] in G.
    change (g1_data (mkAff n0 n0 true)) with ((n0, n0) : G1Data bls_q) in G. rewrite G. cbn [rbind].
    Local Transparent wmul.
    assert (X : forall k, wmul (fq bls_q) k None = None). { induction k as [k IH|k IH|]; cbn [wmul]; rewrite ?IH; reflexivity. }
    unfold in_order, aff_pt. cbn [ainf]. rewrite X. reflexivity.
  - apply R2; [apply N; vm_compute; reflexivity|]. intros C. apply neqb_eq in C. vm_compute in C. discriminate.
Qed.

(* C54 *)
(** A code: decoding an encoding followed by anything gives the value and the rest,
    and whatever decodes is an encoding followed by the rest. *)
Definition code {A} (ser : A -> list Z) (de : list Z -> option (A * list Z)) (ok : A -> Prop) : Prop :=
  (forall v rest, ok v -> de (ser v ++ rest) = Some (v, rest)) /\
  (forall buf v rest, Forall byte buf -> de buf = Some (v, rest) -> ok v /\ buf = ser v ++ rest).
Lemma code_rest {A} ser de ok (buf : list Z) (v : A) rest : code ser de ok -> Forall byte buf -> de buf = Some (v, rest) -> Forall byte rest.
Proof. intros [_ H] B E. destruct (H _ _ _ B E) as [_ ->]. now apply Forall_app in B. Qed.
Lemma code_num q : code (@borsh_ser q) (@borsh_de q) (fun _ => True).
Proof. split; [intros; apply borsh_roundtrip|]. intros buf v rest B E. split; auto. now apply borsh_de_canonical. Qed.
Lemma code_g1 q : code (@g1_ser q) (@g1_de q) (fun _ => True).
Proof.
  destruct (code_num q) as [R C]. split.
  - intros [x y] rest _. unfold g1_ser, g1_de. cbn [fst snd]. rewrite <- app_assoc, !R by auto. reflexivity.
  - intros buf v rest B. unfold g1_de. destruct (borsh_de buf) as [[x b1]|] eqn:E1; [|discriminate].
    pose proof (code_rest _ _ _ _ _ _ (code_num q) B E1) as B1. destruct (borsh_de b1) as [[y b2]|] eqn:E2; [|discriminate].
    intros E. assert (v = (x, y) /\ rest = b2) as [-> ->] by (split; congruence). split; auto.
    destruct (C _ _ _ B E1) as [_ ->]. destruct (C _ _ _ B1 E2) as [_ ->]. unfold g1_ser. cbn [fst snd]. now rewrite <- app_assoc.
Qed.
Lemma code_g2 q : code (@g2_ser q) (@g2_de q) (fun _ => True).
Proof.
  destruct (code_num q) as [R C]. split.
  - intros [[a b] [c d]] rest _. unfold g2_ser, g2_de. cbn [fst snd]. rewrite <- !app_assoc, !R by auto. reflexivity.
  - intros buf v rest B. unfold g2_de. destruct (borsh_de buf) as [[x b1]|] eqn:E1; [|discriminate].
    pose proof (code_rest _ _ _ _ _ _ (code_num q) B E1) as B1. destruct (borsh_de b1) as [[y b2]|] eqn:E2; [|discriminate].
    pose proof (code_rest _ _ _ _ _ _ (code_num q) B1 E2) as B2. destruct (borsh_de b2) as [[z b3]|] eqn:E3; [|discriminate].
    pose proof (code_rest _ _ _ _ _ _ (code_num q) B2 E3) as B3. destruct (borsh_de b3) as [[w b4]|] eqn:E4; [|discriminate].
    intros E. assert (v = ((y, x), (w, z)) /\ rest = b4) as [-> ->] by (split; congruence). split; auto.
    destruct (C _ _ _ B E1) as [_ ->]. destruct (C _ _ _ B1 E2) as [_ ->]. destruct (C _ _ _ B2 E3) as [_ ->]. destruct (C _ _ _ B3 E4) as [_ ->].
    unfold g2_ser. cbn [fst snd]. now rewrite <- !app_assoc.
Qed.
Lemma code_pd q : code (@pd_ser q) (@pd_de q) (fun _ => True).
Proof.
  destruct (code_g1 q) as [R1 C1]. destruct (code_g2 q) as [R2 C2]. split.
  - intros [a b c] rest _. unfold pd_ser, pd_de. cbn [pd_a pd_b pd_c]. rewrite <- !app_assoc, R1, R2, R1 by auto. reflexivity.
  - intros buf v rest B. unfold pd_de. destruct (g1_de buf) as [[x b1]|] eqn:E1; [|discriminate].
    pose proof (code_rest _ _ _ _ _ _ (code_g1 q) B E1) as B1. destruct (g2_de b1) as [[y b2]|] eqn:E2; [|discriminate].
    pose proof (code_rest _ _ _ _ _ _ (code_g2 q) B1 E2) as B2. destruct (g1_de b2) as [[z b3]|] eqn:E3; [|discriminate].
    intros E. assert (v = mkPD x y z /\ rest = b3) as [-> ->] by (split; congruence). split; auto.
    destruct (C1 _ _ _ B E1) as [_ ->]. destruct (C2 _ _ _ B1 E2) as [_ ->]. destruct (C1 _ _ _ B2 E3) as [_ ->].
    unfold pd_ser. cbn [pd_a pd_b pd_c]. now rewrite <- !app_assoc.
Qed.
Lemma code_many {A} (ser : A -> list Z) de : code ser de (fun _ => True) -> forall n,
  code (fun l => concat (map ser l)) (many_de de n) (fun l => length l = n).
Proof.
  intros HC. pose proof HC as [R C]. induction n as [|n [IR IC]].
  - split; [intros [|x l] rest H; [reflexivity|discriminate]|]. intros buf v rest B E. cbn in E.
    assert (v = [] /\ rest = buf) as [-> ->] by (split; congruence). auto.
  - split.
    + intros [|x l] rest H; [discriminate|]. cbn [map concat many_de]. rewrite <- app_assoc, R, IR by (auto; cbn in H; lia). reflexivity.
    + intros buf v rest B E. cbn [many_de] in E. destruct (de buf) as [[x b1]|] eqn:E1; [|discriminate].
      pose proof (code_rest _ _ _ _ _ _ HC B E1) as B1. destruct (many_de de n b1) as [[l b2]|] eqn:E2; [|discriminate].
      assert (v = x :: l /\ rest = b2) as [-> ->] by (split; congruence). destruct (C _ _ _ B E1) as [_ ->]. destruct (IC _ _ _ B1 E2) as [L ->].
      cbn [map concat length]. rewrite <- app_assoc. auto.
Qed.
Lemma code_vec {A} (ser : A -> list Z) de : code ser de (fun _ => True) ->
  code (vec_ser ser) (vec_de de) (fun l => Z.of_nat (length l) < 2 ^ 32).
Proof.
  intros HC. split.
  - intros l rest H. unfold vec_ser, vec_de. rewrite <- app_assoc.
    pose proof (take_bytes_app (le_bytes 4 (Z.of_nat (length l))) (concat (map ser l) ++ rest)) as T. rewrite le_bytes_length in T. rewrite T.
    rewrite le_val_le_bytes, Z.mod_small, Nat2Z.id by (change (256 ^ Z.of_nat 4) with (2 ^ 32); lia).
    now apply (proj1 (code_many ser de HC (length l))).
  - intros buf v rest B E. unfold vec_de in E. destruct (take_bytes 4 buf) as [[h b1]|] eqn:E1; [|discriminate].
    apply take_bytes_some in E1. destruct E1 as [-> L]. apply Forall_app in B. destruct B as [Bh B1].
    destruct (proj2 (code_many ser de HC _) _ _ _ B1 E) as [Lv ->]. pose proof (le_val_range h Bh) as V. rewrite L in V. change (256 ^ Z.of_nat 4) with (2 ^ 32) in V.
    split; [rewrite Lv; lia|]. unfold vec_ser. rewrite <- app_assoc. f_equal. rewrite Lv, Z2Nat.id by lia. rewrite <- L. symmetry. now apply le_bytes_le_val.
Qed.
Lemma code_vd q : code (@vd_ser q) (@vd_de q) (fun d => Z.of_nat (length (vd_ic d)) < 2 ^ 32).
Proof.
  destruct (code_g1 q) as [R1 C1]. destruct (code_g2 q) as [R2 C2]. pose proof (code_vec _ _ (code_g1 q)) as HV. pose proof HV as [RV CV]. split.
  - intros [a b c d ic] rest H. unfold vd_ser, vd_de. cbn [vd_alpha vd_beta vd_gamma vd_delta vd_ic] in *. rewrite <- !app_assoc, R1, !R2, RV by auto. reflexivity.
  - intros buf v rest B. unfold vd_de. destruct (g1_de buf) as [[x b1]|] eqn:E1; [|discriminate].
    pose proof (code_rest _ _ _ _ _ _ (code_g1 q) B E1) as B1. destruct (g2_de b1) as [[y b2]|] eqn:E2; [|discriminate].
    pose proof (code_rest _ _ _ _ _ _ (code_g2 q) B1 E2) as B2. destruct (g2_de b2) as [[z b3]|] eqn:E3; [|discriminate].
    pose proof (code_rest _ _ _ _ _ _ (code_g2 q) B2 E3) as B3. destruct (g2_de b3) as [[w b4]|] eqn:E4; [|discriminate].
    pose proof (code_rest _ _ _ _ _ _ (code_g2 q) B3 E4) as B4. destruct (vec_de g1_de b4) as [[ic b5]|] eqn:E5; [|discriminate].
    intros E. assert (v = mkVKD x y z w ic /\ rest = b5) as [-> ->] by (split; congruence).
    destruct (C1 _ _ _ B E1) as [_ ->]. destruct (C2 _ _ _ B1 E2) as [_ ->]. destruct (C2 _ _ _ B2 E3) as [_ ->]. destruct (C2 _ _ _ B3 E4) as [_ ->].
    destruct (CV _ _ _ B4 E5) as [L ->]. split; [exact L|]. unfold vd_ser. cbn [vd_alpha vd_beta vd_gamma vd_delta vd_ic]. now rewrite <- !app_assoc.
Qed.

Lemma claim_C54_roundtrip : forall (q : positive) (rest : list Z) (p1 : G1Data q) (p2 : G2Data q) (pd : ProofData q) (vd : VKData q),
  g1_de (g1_ser p1 ++ rest) = Some (p1, rest) /\ g2_de (g2_ser p2 ++ rest) = Some (p2, rest) /\
  pd_de (pd_ser pd ++ rest) = Some (pd, rest) /\
  (Z.of_nat (length (vd_ic vd)) < 2 ^ 32 -> vd_de (vd_ser vd ++ rest) = Some (vd, rest)).
Proof.
  intros q rest p1 p2 pd vd. split; [now apply code_g1|]. split; [now apply code_g2|]. split; [now apply code_pd|]. intros H. now apply code_vd.
Qed.
(** The layout: consecutive field elements, each [8 limbs] bytes little endian; for
    G2 the real part first, although the data holds the imaginary part first. *)
Lemma claim_C54_layout : forall (q : positive) (x y : Num q) (x1 x0 y1 y0 : Num q) (p1 p3 : G1Data q) (p2 : G2Data q),
  let n := (8 * num_limbs q)%nat in
  g1_ser (x, y) = le_bytes n (nval x) ++ le_bytes n (nval y) /\
  g2_ser ((x1, x0), (y1, y0)) = le_bytes n (nval x0) ++ le_bytes n (nval x1) ++ le_bytes n (nval y0) ++ le_bytes n (nval y1) /\
  length (pd_ser (mkPD p1 p2 p3)) = (8 * n)%nat.
Proof.
  intros q x y x1 x0 y1 y0 p1 p3 p2 n. unfold g1_ser, g2_ser. cbn [fst snd]. rewrite !borsh_ser_bytes. split; [reflexivity|]. split; [reflexivity|].
  unfold pd_ser, g1_ser, g2_ser. cbn [pd_a pd_b pd_c]. rewrite !app_length, !borsh_ser_bytes, !le_bytes_length. fold n. lia.
Qed.
(** Whatever decodes is the encoding of the result: everything else is an error. *)
Lemma claim_C54_exact : forall (q : positive) (buf : list Z), Forall byte buf ->
  match @g1_de q buf with Some (v, rest) => buf = g1_ser v ++ rest | None => forall (v : G1Data q) rest, buf <> g1_ser v ++ rest end /\
  match @g2_de q buf with Some (v, rest) => buf = g2_ser v ++ rest | None => forall (v : G2Data q) rest, buf <> g2_ser v ++ rest end /\
  match @pd_de q buf with Some (v, rest) => buf = pd_ser v ++ rest | None => forall (v : ProofData q) rest, buf <> pd_ser v ++ rest end /\
  match @vd_de q buf with
  | Some (v, rest) => Z.of_nat (length (vd_ic v)) < 2 ^ 32 /\ buf = vd_ser v ++ rest
  | None => forall (v : VKData q) rest, Z.of_nat (length (vd_ic v)) < 2 ^ 32 -> buf <> vd_ser v ++ rest
  end.
Proof.
  intros q buf B. repeat split.
  - destruct (g1_de buf) as [[v rest]|] eqn:E; [now apply (code_g1 q)|]. intros v rest ->. rewrite (proj1 (code_g1 q)) in E by auto. discriminate.
  - destruct (g2_de buf) as [[v rest]|] eqn:E; [now apply (code_g2 q)|]. intros v rest ->. rewrite (proj1 (code_g2 q)) in E by auto. discriminate.
  - destruct (pd_de buf) as [[v rest]|] eqn:E; [now apply (code_pd q)|]. intros v rest ->. rewrite (proj1 (code_pd q)) in E by auto. discriminate.
  - destruct (vd_de buf) as [[v rest]|] eqn:E; [now apply (code_vd q)|]. intros v rest H ->. rewrite (proj1 (code_vd q)) in E by auto. discriminate.
Qed.
Lemma claim_C54_injective : forall (q : positive),
  (forall a b : G1Data q, g1_ser a = g1_ser b -> a = b) /\ (forall a b : G2Data q, g2_ser a = g2_ser b -> a = b) /\
  (forall a b : ProofData q, pd_ser a = pd_ser b -> a = b) /\
  (forall a b : VKData q, Z.of_nat (length (vd_ic a)) < 2 ^ 32 -> Z.of_nat (length (vd_ic b)) < 2 ^ 32 -> vd_ser a = vd_ser b -> a = b).
Proof.
  intros q. assert (G : forall A ser de ok (a b : A), code ser de ok -> ok a -> ok b -> ser a = ser b -> a = b).
  { intros A ser de ok a b [R _] Ha Hb E. pose proof (R a [] Ha) as X. pose proof (R b [] Hb) as Y. rewrite E, Y in X. congruence. }
  split; [intros a b; apply (G _ _ _ _ a b (code_g1 q)); auto|]. split; [intros a b; apply (G _ _ _ _ a b (code_g2 q)); auto|].
  split; [intros a b; apply (G _ _ _ _ a b (code_pd q)); auto|]. intros a b Ha Hb. apply (G _ _ _ _ a b (code_vd q)); auto.
Qed.
Lemma case_C54_roundtrip :
  let d := mkVKD (num 1, num 2) ((num 3, num 4), (num 5, num 6)) ((num 7, num 8), (num 9, num 10)) ((num 11, num 12), (num 0, num 1)) [(num 2, num 3); (num 4, num 5)] : VKData 13 in
  length (vd_ser d) = 148%nat /\ @vd_de 13 (vd_ser d ++ [7]) = Some (d, [7]) /\ @vd_de 13 (firstn 100 (vd_ser d)) = None.
Proof. intros d. split; [vm_compute; reflexivity|]. split; [refine (proj2 (proj2 (proj2 (claim_C54_roundtrip 13 [7] (num 0, num 0) ((num 0, num 0), (num 0, num 0)) (mkPD (num 0, num 0) ((num 0, num 0), (num 0, num 0)) (num 0, num 0)) d))) _); reflexivity|vm_compute; reflexivity]. Qed.
