(** The points accepted from data, and their sums, on the curves of the Groth16 helpers. *)

From Verif Require Export WeierAssoc CertBls PointClaims G2Claims.
Open Scope Z_scope.

(** [wadd], [wdouble] and [wmul] make the curve [y^2 = x^3 + b] a commutative group by
    chords and tangents, and [wmul k P] is [P + ... + P]. *)
Definition curve_group {K} (O : fops K) (b : K) : Prop :=
  chord_law O b (wadd O) /\
  (forall P Q R, onw O b P -> onw O b Q -> onw O b R -> wadd O (wadd O P Q) R = wadd O P (wadd O Q R)) /\
  (forall P, wdouble O P = wadd O P P) /\
  (forall k P, onw O b P -> wmul O k P = Pos.iter (wadd O P) None k).

Section Mult.
Context {K : Type} (O : fops K) (b : K) (H : curve_group O b).
Set Default Proof Using "Type*".
Notation on := (onw O b). Notation add := (wadd O).
Lemma cg_on P Q : on P -> on Q -> on (add P Q).
Proof. intros HP HQ. exact (proj1 (proj2 (proj2 (proj2 (proj1 H P Q HP HQ))))). Qed.
Lemma cg_comm P Q : on P -> on Q -> add P Q = add Q P.
Proof. intros HP HQ. exact (proj1 (proj2 (proj2 (proj1 H P Q HP HQ)))). Qed.
Lemma cg_assoc P Q R : on P -> on Q -> on R -> add (add P Q) R = add P (add Q R).
Proof. exact (proj1 (proj2 H) P Q R). Qed.
Lemma cg_none P : add P None = P.
Proof. now destruct P as [[]|]. Qed.
Lemma cg_iter P k : on P -> on (Pos.iter (add P) None k).
Proof. intros HP. induction k using Pos.peano_ind; [|rewrite Pos.iter_succ]; apply cg_on; auto. exact I. Qed.
Lemma cg_iter_none k : Pos.iter (add None) None k = None.
Proof. induction k using Pos.peano_ind; [reflexivity|]. now rewrite Pos.iter_succ, IHk. Qed.
(** The points of order dividing [k] are closed under addition and negation. *)
Lemma cg_sum P Q k : on P -> on Q -> Pos.iter (add (add P Q)) None k = add (Pos.iter (add P) None k) (Pos.iter (add Q) None k).
Proof.
  intros HP HQ. induction k as [|k IH] using Pos.peano_ind.
  - cbn [Pos.iter]. now rewrite !cg_none.
  - rewrite !Pos.iter_succ, IH. set (p := Pos.iter (add P) None k). set (q := Pos.iter (add Q) None k).
    assert (Hp : on p) by (apply cg_iter; auto). assert (Hq : on q) by (apply cg_iter; auto).
    rewrite !cg_assoc by auto using cg_on. f_equal. rewrite <- !cg_assoc by auto using cg_on. f_equal. apply cg_comm; auto.
Qed.
Lemma order_add P Q k : on P -> on Q -> wmul O k P = None -> wmul O k Q = None -> wmul O k (add P Q) = None.
Proof.
  intros HP HQ. destruct H as [_ [_ [_ M]]]. rewrite !M by auto using cg_on. intros E F. now rewrite cg_sum, E, F.
Qed.
Lemma order_neg P k : on P -> on (wneg O P) -> wmul O k P = None -> wmul O k (wneg O P) = None.
Proof.
  intros HP HN. destruct H as [C [_ [_ M]]]. rewrite !M by auto. intros E.
  pose proof (cg_sum P (wneg O P) k HP HN) as S'. assert (Z : add P (wneg O P) = None) by (now apply (C P (wneg O P) HP HN)).
  rewrite Z, cg_iter_none, E in S'. symmetry. exact S'.
Qed.
End Mult.

Section Group.
Context {K : Type} (O : fops K) (k1 : K) (kopp kinv : K -> K).
Context (KF : field_theory (k0 O) k1 (kadd O) (kmul O) (ksub O) kopp (kdiv O) kinv eq).
Context (EQ : forall a b, keqb O a b = true <-> a = b) (two : kadd O k1 k1 <> k0 O) (three : kadd O (kadd O k1 k1) k1 <> k0 O).
Context (b : K) (b_nz : b <> k0 O).
Set Default Proof Using "Type*".
Notation on := (onw O b). Notation add := (wadd O).
Let assoc := wadd_assoc O k1 kopp kinv KF EQ two three b b_nz.
Let closed A B : on A -> on B -> on (add A B) := wadd_on O k1 kopp kinv KF EQ two b A B.
Lemma it_on P k : on P -> on (Pos.iter (add P) None k).
Proof. intros HP. induction k using Pos.peano_ind; [|rewrite Pos.iter_succ]; apply closed; auto. exact I. Qed.
Lemma it_add P j k : on P -> add (Pos.iter (add P) None j) (Pos.iter (add P) None k) = Pos.iter (add P) None (j + k).
Proof.
  intros HP. induction j as [|j IH] using Pos.peano_ind.
  - rewrite Pos.add_1_l, Pos.iter_succ. cbn [Pos.iter]. f_equal. now destruct P as [[]|].
  - rewrite Pos.add_succ_l, !Pos.iter_succ, assoc, IH; auto using it_on.
Qed.
Lemma wmul_it P k : on P -> wmul O k P = Pos.iter (add P) None k.
Proof.
  intros HP. induction k as [k IH|k IH|]; cbn [wmul]; [| |cbn; now destruct P as [[]|]]; rewrite (wdouble_add O k1 kopp kinv KF EQ two), IH, it_add by auto.
  - replace (xI k) with (Pos.succ (k + k)) by lia. rewrite Pos.iter_succ. apply (wadd_comm O k1 kopp kinv KF EQ two b); auto using it_on.
  - replace (xO k) with (k + k)%positive by lia. reflexivity.
Qed.
Lemma group : curve_group O b.
Proof.
  split; [exact (wadd_law O k1 kopp kinv KF EQ two b)|]. split; [exact assoc|]. split; [exact (wdouble_add O k1 kopp kinv KF EQ two)|].
  intros k P. apply wmul_it.
Qed.
End Group.

Section Neg.
Context {K : Type} (O : fops K) (k1 : K) (kopp kinv : K -> K).
Context (KF : field_theory (k0 O) k1 (kadd O) (kmul O) (ksub O) kopp (kdiv O) kinv eq).
Add Field nf : KF.
Lemma wneg_on b A : onw O b A -> onw O b (wneg O A).
Proof. destruct A as [[x y]|]; cbn; auto. intros <-. ring. Qed.
End Neg.
(** The two fields *)
Lemma num_nonzero {q} z : 0 < z < Zpos q -> (num z : Num q) <> n0.
Proof. intros H E. apply num_eq_mod in E. rewrite Z.mod_small, Z.mod_0_l in E; lia. Qed.
Section Fields.
Context {q : positive} (Hq : prime (Zpos q)) (H3 : 3 < Zpos q).
Open Scope num_scope.
Add Field wc_field : (num_field Hq) (morphism (@num_morph q), constants [num_cst], power_tac (@num_power q) [num_pow_cst]).
Set Default Proof Using "Type*".
Lemma fq_two : (1 + 1 : Num q) <> 0.
Proof. change (1 + 1 : Num q) with (num 1 + num 1 : Num q). rewrite <- num_add. apply num_nonzero. lia. Qed.
Lemma fq_three : (1 + 1 + 1 : Num q) <> 0.
Proof. change (1 + 1 + 1 : Num q) with (num 1 + num 1 + num 1 : Num q). rewrite <- !num_add. apply num_nonzero. lia. Qed.
Lemma fq_group (b : Num q) : b <> 0 -> curve_group (fq q) b.
Proof. apply (group (fq q) 1 nneg finv (num_field Hq) neqb_eq fq_two fq_three). Qed.

Context (H4 : Zpos q mod 4 = 3%Z).
Definition q2opp (a : Fq2 q) : Fq2 q := mkFq2 (- c0 a) (- c1 a).
Definition q2one : Fq2 q := mkFq2 1 0.
Definition q2inv (b : Fq2 q) : Fq2 q := let n := finv (nsquare (c0 b) + nsquare (c1 b)) in mkFq2 (c0 b * n) (- (c1 b * n)).
Lemma q2_field : field_theory q2zero q2one q2add q2mul q2sub q2opp q2div q2inv eq.
Proof.
  constructor.
  - constructor; intros; apply q2_ext; cbn [c0 c1 q2add q2mul q2sub q2opp q2zero q2one]; ring.
  - intros E. assert (X : (1 : Num q) = 0) by exact (f_equal c0 E). apply fq_two. rewrite X. ring.
  - reflexivity.
  - intros a Ha. pose proof (q2norm Hq H4 a Ha) as N. unfold nsquare in N. apply q2_ext; unfold q2inv, nsquare; cbn [c0 c1 q2mul q2one]; field; exact N.
Qed.
Lemma fq2_group (b : Fq2 q) : b <> q2zero -> curve_group (fq2 q) b.
Proof.
  apply (group (fq2 q) q2one q2opp q2inv q2_field q2eqb_eq).
  - intros E. apply (f_equal c0) in E. exact (fq_two E).
  - intros E. apply (f_equal c0) in E. exact (fq_three E).
Qed.
End Fields.

(* C77 *)
(** The addition used by the subgroup check is the group law of the curve, over every
    prime field of characteristic above 3 and over the quadratic extension by [u^2 = -1],
    and the check's multiplication is repeated addition. *)
Lemma claim_C77_group_law : forall q, Prime q -> 3 < Zpos q ->
  (forall b, b <> n0 -> curve_group (fq q) b) /\ (Zpos q mod 4 = 3 -> forall b, b <> q2zero -> curve_group (fq2 q) b).
Proof. intros q Hq H3. split; [now apply fq_group|]. intros H4 b. now apply fq2_group. Qed.
Lemma case_C77_group_law : prime 7 /\ 3 < 7 /\ 7 mod 4 = 3 /\ onw (fq 7) (num 3) (Some (num 1, num 2)) /\
  wadd (fq 7) (Some (num 1, num 2)) (Some (num 1, num 2)) = Some (num 6, num 3) /\ wmul (fq 7) 13 (Some (num 1, num 2)) = None.
Proof. split; [apply trial_prime; vm_compute; reflexivity|]. split; [lia|]. split; [reflexivity|]. vm_compute. repeat split; try (apply f_equal, f_equal2); try apply num_eq; reflexivity. Qed.
(** The four curves of the code *)
Lemma claim_C77_curves : curve_group (fq bn_q) (num 3) /\ curve_group (fq2 bn_q) bn_b2 /\
  curve_group (fq bls_q) (num 4) /\ curve_group (fq2 bls_q) (mkFq2 (num 4) (num 4)).
Proof.
  pose proof prime_bn_q as B. pose proof prime_bls_q as L.
  split; [apply (fq_group B); [reflexivity|]; apply num_nonzero; split; reflexivity|]. split.
  { apply (fq2_group B); [reflexivity|reflexivity|]. intros E. apply (f_equal c0) in E. revert E. rewrite bn_b2_eq. cbn [c0]. apply num_nonzero. split; reflexivity. }
  split; [apply (fq_group L); [reflexivity|]; apply num_nonzero; split; reflexivity|].
  apply (fq2_group L); [reflexivity|reflexivity|]. intros E. apply (f_equal c0) in E. revert E. cbn [c0]. apply num_nonzero. split; reflexivity.
Qed.
Lemma case_C77_curves : onw (fq bn_q) (num 3) (Some (num 1, num 2)) /\ onw (fq bls_q) (num 4) (Some (num 0, num 2)) /\
  (num 3 : Num bn_q) <> n0 /\ (num 4 : Num bls_q) <> n0.
Proof.
  split; [vm_compute; apply num_eq; reflexivity|]. split; [vm_compute; apply num_eq; reflexivity|].
  split; apply num_nonzero; split; reflexivity.
Qed.
