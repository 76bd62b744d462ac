(** C52: the BN256 G2 conversion does not check the subgroup. *)

From Verif Require Import Primality.
From Verif Require Export PointClaims BnG2.
Open Scope Z_scope.

Lemma bn_steps_ok : (if w_run (Zpos bn_q) (bn_x, bn_y) bn_ord bn_steps then true else false) = true.
Proof. vm_compute. reflexivity. Qed.
Definition bn_outside : Aff (Fq2 bn_q) := mkAff (q2 bn_x) (q2 bn_y) false.
Definition bn_outside_data : G2Data bn_q := ((num (snd bn_x), num (fst bn_x)), (num (snd bn_y), num (fst bn_y))).

(** Data that is accepted and is not in the subgroup of order r. *)
Lemma claim_C52_bn_subgroup_refuted : exists d a, bn_g2 d = Ok a /\ in_order (fq2 bn_q) bn_ord a = false.
Proof.
  exists bn_outside_data, bn_outside. split.
  - pose proof (g2_curve_spec bn_b2 bn_outside_data) as H. cbv zeta in H. unfold bn_g2.
    destruct (g2_curve bn_b2 bn_outside_data) as [a|].
    + destruct H as [[X _]|[_ [_ ->]]]; [|reflexivity]. exfalso. apply (f_equal c0) in X. cbn [c0 q2zero bn_outside_data fst snd bn_x] in X.
      apply num_eq_mod in X. vm_compute in X. discriminate.
    + exfalso. destruct H as [_ H]. apply H. unfold curve2. rewrite bn_b2_eq. cbn [bn_outside_data fst snd bn_x bn_y].
      apply q2_ext; unfold q2mul, q2add; cbn [c0 c1]; repeat rewrite <- ?num_mul, <- ?num_add, <- ?num_sub; apply num_eq_mod; vm_compute; reflexivity.
  - apply (w_run_not_in_order prime_bn_q) with (ss := bn_steps) (Q := (bn_x, bn_y)); [reflexivity|]. exact bn_steps_ok.
Qed.
(** The test itself is not trivial: the point at infinity passes it. *)
Lemma case_C52_bn_subgroup_refuted : in_order (fq2 bn_q) bn_ord (mkAff q2zero q2zero true) = true.
Proof.
  unfold in_order, aff_pt. cbn [ainf]. assert (E : forall k, wmul (fq2 bn_q) k None = None).
  { induction k as [k IH|k IH|]; cbn [wmul]; rewrite ?IH; reflexivity. }
  now rewrite E.
Qed.
