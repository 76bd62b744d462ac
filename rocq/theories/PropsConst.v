(** Generated from ConstClaims.v by tools/genprops.py. *)
From Verif Require Import ConstClaims.
Open Scope num_scope.

(** Addition of constant points: the coordinates of the sum come out inverted, and a zero one panics. *)
Theorem C71_add_actual : forall (p l : positive) (J : JubJub p l) (P Q : EPoint p), jubjub_ok J ->
  on_curve (jd J) P -> on_curve (jd J) Q ->
  let m := ce_add (jd J) (cp_from_const (ex P) (ey P)) (cp_from_const (ex Q) (ey Q)) in let S := eadd (jd J) P Q in
  (ex S <> 0 -> ey S <> 0 -> exists R, m = Ret R /\ cp_as_const R = Some (1 / ex S, 1 / ey S)) /\
  (ex S = 0 \/ ey S = 0 -> m = PPanic).
Proof. exact claim_C71_add_actual. Qed.
Print Assumptions C71_add_actual.

Theorem C71_double_actual : forall (p l : positive) (J : JubJub p l) (P : EPoint p), jubjub_ok J -> on_curve (jd J) P ->
  let m := ce_double (jd J) (cp_from_const (ex P) (ey P)) in let S := eadd (jd J) P P in
  (ex S <> 0 -> ey S <> 0 -> exists R, m = Ret R /\ cp_as_const R = Some (1 / ex S, 1 / ey S)) /\
  (ex S = 0 \/ ey S = 0 -> m = PPanic).
Proof. exact claim_C71_double_actual. Qed.
Print Assumptions C71_double_actual.

(** So the gadgets are wrong on constant points: on a toy curve, runs whose constraints hold and whose result
    is not the sum, the double, or eight times the point. *)
Theorem C71_const_refuted : exists (p l : positive) (J : JubJub p l) (P Q : EPoint p), jubjub_ok J /\ insub J P /\ insub J Q /\
  let c P := cp_from_const (ex P) (ey P) in
  demo [] (ce_add (jd J) (c P) (c Q)) (fun s R => cpe s R <> eadd (jd J) P Q) /\
  demo [] (ce_double (jd J) (c P)) (fun s R => cpe s R <> eadd (jd J) P P) /\
  demo [] (ce_mul_by_cofactor (jd J) (c P)) (fun s R => cpe s R <> emul (jd J) 8 P).
Proof. exact claim_C71_const_refuted. Qed.
Print Assumptions C71_const_refuted.

(** from_scalar of a constant: the inverted quotient moves the Montgomery point by (0, 0), which the cofactor
    removes again, but the root chosen by parity may then be the other one and the result the negative. *)
Theorem C71_from_scalar_refuted : exists (p l : positive) (J : JubJub p l) (sqrt : Num p -> option (Num p)) (t : Num p) (P : EPoint p),
  jubjub_ok J /\ (forall a, match sqrt a with Some b => b * b = a | None => ~ is_square a end) /\ from_scalar sqrt J t = Ok P /\
  demo [] (ce_from_scalar sqrt J (cconst t)) (fun s R => cpe s R <> P).
Proof. exact claim_C71_from_scalar_refuted. Qed.
Print Assumptions C71_from_scalar_refuted.

(** ** Cases *)
Example C71_add_actual_case : on_curve (jd toy2) (e73 1 56) /\ on_curve (jd toy2) (e73 19 68) /\
  ex (eadd (jd toy2) (e73 1 56) (e73 19 68)) <> 0 /\ ey (eadd (jd toy2) (e73 1 56) (e73 19 68)) <> 0.
Proof. exact case_C71_add_actual. Qed.

(** Doubling the point of order two panics. *)
Example C71_double_actual_case : on_curve (jd toy2) (e73 0 72) /\ ex (eadd (jd toy2) (e73 0 72) (e73 0 72)) = 0 /\
  ce_double (jd toy2) (cp_from_const (num 0) (num 72)) = PPanic.
Proof. exact case_C71_double_actual. Qed.
