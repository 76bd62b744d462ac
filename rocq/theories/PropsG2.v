(** Generated from G2Claims.v by tools/genprops.py. *)
From Verif Require Import G2Claims.
Open Scope Z_scope.

(** Data that is accepted and is not in the subgroup of order r. *)
Theorem C52_bn_subgroup_refuted : exists d a, bn_g2 d = Ok a /\ in_order (fq2 bn_q) bn_ord a = false.
Proof. exact claim_C52_bn_subgroup_refuted. Qed.
Print Assumptions C52_bn_subgroup_refuted.

(** The test itself is not trivial: the point at infinity passes it. *)
Example C52_bn_subgroup_refuted_case : in_order (fq2 bn_q) bn_ord (mkAff q2zero q2zero true) = true.
Proof. exact case_C52_bn_subgroup_refuted. Qed.
