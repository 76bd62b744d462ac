(** Generated from WeierClaims.v by tools/genprops.py. *)
From Verif Require Import WeierClaims.
Open Scope Z_scope.

(** The addition used by the subgroup check is the group law of the curve, over every
    prime field of characteristic above 3 and over the quadratic extension by [u^2 = -1],
    and the check's multiplication is repeated addition. *)
Theorem C77_group_law : forall q, Prime q -> 3 < Zpos q ->
  (forall b, b <> n0 -> curve_group (fq q) b) /\ (Zpos q mod 4 = 3 -> forall b, b <> q2zero -> curve_group (fq2 q) b).
Proof. exact claim_C77_group_law. Qed.
Print Assumptions C77_group_law.

Example C77_group_law_case : prime 7 /\ 3 < 7 /\ 7 mod 4 = 3 /\ onw (fq 7) (num 3) (Some (num 1, num 2)) /\
  wadd (fq 7) (Some (num 1, num 2)) (Some (num 1, num 2)) = Some (num 6, num 3) /\ wmul (fq 7) 13 (Some (num 1, num 2)) = None.
Proof. exact case_C77_group_law. Qed.

(** The four curves of the code *)
Theorem C77_curves : curve_group (fq bn_q) (num 3) /\ curve_group (fq2 bn_q) bn_b2 /\
  curve_group (fq bls_q) (num 4) /\ curve_group (fq2 bls_q) (mkFq2 (num 4) (num 4)).
Proof. exact claim_C77_curves. Qed.
Print Assumptions C77_curves.

Example C77_curves_case : onw (fq bn_q) (num 3) (Some (num 1, num 2)) /\ onw (fq bls_q) (num 4) (Some (num 0, num 2)) /\
  (num 3 : Num bn_q) <> n0 /\ (num 4 : Num bls_q) <> n0.
Proof. exact case_C77_curves. Qed.
