(** Generated from MontClaims.v by tools/genprops.py. *)
From Verif Require Import MontClaims.
Open Scope num_scope.

Theorem C79_into_montgomery : forall (p l : positive) (J : JubJub p l) (U : list Index) (P : CPoint p), jubjub_ok J ->
  In I0 U -> Forall (owned U) (coords P) -> Forall (fun c => as_const c = None) (coords P) ->
  let m := ce_into_montgomery P in
  let E s M := e_into_montgomery (cpe s P) = Ok (Some (cpm s M)) /\ on_mont (ja J) (jb J) (cpm s M) in
  sound_for U m (fun s M => on_curve (jd J) (cpe s P) /\ ceval s (px P) <> 0 -> E s M) /\
  complete_for U m (fun s => Forall (valued s) (coords P) /\ on_curve (jd J) (cpe s P) /\ ceval s (px P) <> 0)
    (fun s M => Forall (valued s) (coords M) /\ E s M) /\
  (Forall blank (coords P) -> synth_for U m (fun k n M => Forall blank (coords M) /\ k = 2%nat /\ n = 2%nat)).
Proof. exact claim_C79_into_montgomery. Qed.
Print Assumptions C79_into_montgomery.

Theorem C79_into_edwards : forall (p l : positive) (J : JubJub p l) (U : list Index) (M : CPoint p), jubjub_ok J ->
  In I0 U -> Forall (owned U) (coords M) -> Forall (fun c => as_const c = None) (coords M) ->
  let m := cm_into_edwards M in
  let E s P := m_into_affine (cpm s M) = Ok (cpe s P) /\ on_curve (jd J) (cpe s P) in
  sound_for U m (fun s P => on_mont (ja J) (jb J) (cpm s M) -> E s P) /\
  complete_for U m (fun s => Forall (valued s) (coords M) /\ on_mont (ja J) (jb J) (cpm s M))
    (fun s P => Forall (valued s) (coords P) /\ E s P) /\
  (Forall blank (coords M) -> synth_for U m (fun k n P => Forall blank (coords P) /\ k = 5%nat /\ n = 5%nat)).
Proof. exact claim_C79_into_edwards. Qed.
Print Assumptions C79_into_edwards.

(** [P] and [Q] are the Edwards forms of the points added. *)
Theorem C79_add : forall (p l : positive) (J : JubJub p l) (U : list Index) (M N : CPoint p), jubjub_ok J ->
  In I0 U -> Forall (owned U) (coords M ++ coords N) ->
  as_const (csub (px N) (px M)) = None -> as_const (csub (py N) (py M)) = None ->
  let m := cm_add (ja J) (jb J) M N in
  let Pre s := on_mont (ja J) (jb J) (cpm s M) /\ on_mont (ja J) (jb J) (cpm s N) /\
    ceval s (px M) <> ceval s (px N) /\ ceval s (px N) <> 0 in
  let E s R := on_mont (ja J) (jb J) (cpm s R) /\ exists P Q, m_into_affine (cpm s M) = Ok P /\ m_into_affine (cpm s N) = Ok Q /\
    e_into_montgomery (eadd (jd J) P Q) = Ok (Some (cpm s R)) /\ m_into_affine (cpm s R) = Ok (eadd (jd J) P Q) in
  sound_for U m (fun s R => Pre s -> E s R) /\
  complete_for U m (fun s => Forall (valued s) (coords M ++ coords N) /\ Pre s) (fun s R => Forall (valued s) (coords R) /\ E s R) /\
  (Forall blank (coords M ++ coords N) -> synth_for U m (fun k n R => Forall blank (coords R) /\ k = 3%nat /\ n = 3%nat)).
Proof. exact claim_C79_add. Qed.
Print Assumptions C79_add.

Theorem C79_double : forall (p l : positive) (J : JubJub p l) (U : list Index) (M : CPoint p), jubjub_ok J ->
  In I0 U -> Forall (owned U) (coords M) -> Forall (fun c => as_const c = None) (coords M) ->
  let m := cm_double (ja J) (jb J) M in
  let Pre s := on_mont (ja J) (jb J) (cpm s M) /\ ceval s (px M) <> 0 in
  let E s R := on_mont (ja J) (jb J) (cpm s R) /\ exists P, m_into_affine (cpm s M) = Ok P /\
    e_into_montgomery (eadd (jd J) P P) = Ok (Some (cpm s R)) /\ m_into_affine (cpm s R) = Ok (eadd (jd J) P P) in
  sound_for U m (fun s R => Pre s -> E s R) /\
  complete_for U m (fun s => Forall (valued s) (coords M) /\ Pre s) (fun s R => Forall (valued s) (coords R) /\ E s R) /\
  (Forall blank (coords M) -> synth_for U m (fun k n R => Forall blank (coords R) /\ k = 4%nat /\ n = 4%nat)).
Proof. exact claim_C79_double. Qed.
Print Assumptions C79_double.

Theorem C79_add_equal_refuted : exists (p l : positive) (J : JubJub p l) (U : list Index) (M N R : CPoint p) tr s, jubjub_ok J /\
  exec U (cm_add (ja J) (jb J) M N) tr (Some R) /\ In I0 U /\ Forall (owned U) (coords M ++ coords N) /\ s I0 = 1 /\ sat s tr /\
  on_mont (ja J) (jb J) (cpm s M) /\ cpm s M = cpm s N /\ ceval s (px M) <> 0 /\ ~ on_mont (ja J) (jb J) (cpm s R).
Proof. exact claim_C79_add_equal_refuted. Qed.
Print Assumptions C79_add_equal_refuted.

(** Nor does the conversion of the point of order two, (0, -1), constrain the
    second coordinate, where the native function gives (0, 0). *)
Theorem C79_order_two_refuted : exists (p l : positive) (J : JubJub p l) (U : list Index) (P M : CPoint p) tr s, jubjub_ok J /\
  exec U (ce_into_montgomery P) tr (Some M) /\ In I0 U /\ Forall (owned U) (coords P) /\ s I0 = 1 /\ sat s tr /\
  on_curve (jd J) (cpe s P) /\ cpe s P <> mkE 0 1 /\ e_into_montgomery (cpe s P) = Ok (Some (mkM 0 0)) /\ cpm s M <> mkM 0 0.
Proof. exact claim_C79_order_two_refuted. Qed.
Print Assumptions C79_order_two_refuted.

Example C79_into_montgomery_case : on_curve (jd toy2) (e73 1 56) /\
  demo [num 1; num 56] (ce_into_montgomery (p73 0 1 56)) (fun s M => cpm s M = mkM (num 64) (num 64)).
Proof. exact case_C79_into_montgomery. Qed.

Example C79_into_edwards_case : on_mont (ja toy2) (jb toy2) (mkM (num 64) (num 64)) /\
  demo [num 64; num 64] (cm_into_edwards (p73 0 64 64)) (fun s P => cpe s P = e73 1 56).
Proof. exact case_C79_into_edwards. Qed.

Example C79_add_case : on_mont (ja toy2) (jb toy2) (mkM (num 48) (num 64)) /\ exists R, e_into_montgomery (eadd (jd toy2) (e73 1 56) (e73 19 68)) = Ok (Some R) /\
  demo [num 64; num 64; num 48; num 64] (cm_add (ja toy2) (jb toy2) (p73 0 64 64) (p73 2 48 64)) (fun s M => cpm s M = R).
Proof. exact case_C79_add. Qed.

Example C79_double_case : exists R, e_into_montgomery (eadd (jd toy2) (e73 1 56) (e73 1 56)) = Ok (Some R) /\
  demo [num 64; num 64] (cm_double (ja toy2) (jb toy2) (p73 0 64 64)) (fun s M => cpm s M = R).
Proof. exact case_C79_double. Qed.

Example C79_add_equal_refuted_case : jubjub_ok toy2 /\ on_mont (ja toy2) (jb toy2) (mkM (num 64) (num 64)).
Proof. exact case_C79_add_equal_refuted. Qed.

Example C79_order_two_refuted_case : jubjub_ok toy2 /\ on_curve (jd toy2) (e73 0 72).
Proof. exact case_C79_order_two_refuted. Qed.
