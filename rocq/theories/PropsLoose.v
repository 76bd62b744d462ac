(** Generated from LooseClaims.v by tools/genprops.py. *)
From Verif Require Import LooseClaims.
Open Scope num_scope.

(** switch is the line through its two operands, and a prover completes it for
    any value of the signal. *)
Theorem C86_switch : forall (p : positive), Prime p ->
 forall (U : list Index) (a bit b : CNum p), In I0 U -> owned U a -> owned U bit -> owned U b -> as_const bit = None ->
  let line := fun s r => ceval s r = ceval s b + ceval s bit * (ceval s a - ceval s b) in
  sound_for U (cswitch a bit b) line /\
  complete_for U (cswitch a bit b) (fun s => valued s a /\ valued s bit /\ valued s b) (fun s r => valued s r /\ line s r).
Proof. exact claim_C86_switch. Qed.
Print Assumptions C86_switch.

(** So between two different operands it gives every number of the field, each
    for exactly one value of the signal. *)
Theorem C86_switch_any : forall (p : positive), Prime p ->
 forall (U : list Index) (a bit b : CNum p), In I0 U -> owned U a -> owned U bit -> owned U b -> as_const bit = None ->
  sound_for U (cswitch a bit b) (fun s r => ceval s a <> ceval s b ->
    forall t, ceval s r = t <-> ceval s bit = fdiv (t - ceval s b) (ceval s a - ceval s b)).
Proof. exact claim_C86_switch_any. Qed.
Print Assumptions C86_switch_any.

(** c_from_bits_le adds the signals with the powers of two as weights; one
    signal is enough for any number. *)
Theorem C86_from_bits : forall (p : positive), Prime p ->
 forall (bits : list (CBool p)) (r : CNum p) s, s I0 = n1 -> Forall (fun c => canonical (clc c)) bits ->
  c_from_bits_le bits = Ok r -> ceval s r = weighted (map (ceval s) bits).
Proof. exact claim_C86_from_bits. Qed.
Print Assumptions C86_from_bits.

(** c_mux3 is the trilinear interpolation of the eight constants. *)
Theorem C86_mux3 : forall (p : positive), Prime p ->
 forall (U : list Index) (b0 b1 b2 : CBool p) (c : list (list (Num p))), In I0 U ->
  owned U b0 -> owned U b1 -> owned U b2 ->
  let inter := fun s r => map (ceval s) r = map (trilinear (ceval s b0) (ceval s b1) (ceval s b2)) c in
  sound_for U (c_mux3 [b0; b1; b2] c) inter /\
  (Forall (fun col => length col = 8%nat) c ->
   complete_for U (c_mux3 [b0; b1; b2] c) (fun s => valued s b0 /\ valued s b1 /\ valued s b2) (fun s r => Forall (valued s) r /\ inter s r)).
Proof. exact claim_C86_mux3. Qed.
Print Assumptions C86_mux3.

(** With a signal of value 2 among the bits, the product of a point of the
    subgroup, allocated or constant, need not be on the curve. *)
Theorem C86_mul_variable_refuted : exists (p l : positive) (J : JubJub p l) (P : CPoint p) (bits : list (CBool p)) (v : list (Num p)),
  jubjub_ok J /\ (8 < Zpos l)%Z /\ cp_as_const P = None /\ Forall (fun b : CBool p => as_const b = None) bits /\
  demo v (ce_mul J P bits) (fun s R => insub J (cpe s P) /\ ~ on_curve (jd J) (cpe s R)).
Proof. exact claim_C86_mul_variable_refuted. Qed.
Print Assumptions C86_mul_variable_refuted.

Theorem C86_mul_constant_refuted : exists (p l : positive) (J : JubJub p l) (P : EPoint p) (bits : list (CBool p)) (v : list (Num p)),
  jubjub_ok J /\ (8 < Zpos l)%Z /\ insub J P /\ free_bits bits /\
  demo v (ce_mul J (cp_from_const (ex P) (ey P)) bits) (fun s R => ~ on_curve (jd J) (cpe s R)).
Proof. exact claim_C86_mul_constant_refuted. Qed.
Print Assumptions C86_mul_constant_refuted.

(** With [assert] called on every signal first, the result is a multiple of the
    point, whatever the prover does. *)
Theorem C86_mul_asserted : forall (p l : positive) (J : JubJub p l) (U : list Index) (P : CPoint p) (bits : list (CBool p)), jubjub_ok J -> (8 < Zpos l)%Z ->
  In I0 U -> Forall (owned U) (coords P ++ bits) ->
  let m := pmapM cb_assert bits ;;; ce_mul J P bits in
  (forall x y, cp_as_const P = Some (x, y) -> insub J (mkE x y) -> free_bits bits ->
   sound_for U m (fun s R => exists bs, ebits s bits bs /\ cpe s R = emul (jd J) (bval bs) (mkE x y))) /\
  (Forall (fun c => as_const c = None) (coords P) -> Exists (fun b => as_const b <> Some 0) bits ->
   sound_for U m (fun s R => insub J (cpe s P) -> exists bs, ebits s bits bs /\ cpe s R = emul (jd J) (bval bs) (cpe s P))).
Proof. exact claim_C86_mul_asserted. Qed.
Print Assumptions C86_mul_asserted.

(** Concrete cases: a switch between 3 and 5 with the signal 7, the number 9 from
    one signal, a table read at (2, 1, 0), in the field of 13 elements. *)
Example C86_switch_case : demo [num 3; num 7; num 5 : Num 13] (cswitch (cvar (Some (num 3)) (Aux 0)) (cvar (Some (num 7)) (Aux 1)) (cvar (Some (num 5)) (Aux 2)))
  (fun s r => ceval s r = num 4).
Proof. exact case_C86_switch. Qed.

Example C86_switch_any_case : (num 3 : Num 13) <> num 5 /\ fdiv (num 4 - num 5) (num 3 - num 5) = (num 7 : Num 13).
Proof. exact case_C86_switch_any. Qed.

Example C86_from_bits_case : exists r : CNum 13, c_from_bits_le [cvar (Some (num 9)) (Aux 0); cvar (Some n0) (Aux 1)] = Ok r /\
  ceval (fun i => match i with Aux O => num 9 | Input O => n1 | _ => n0 end) r = num 9.
Proof. exact case_C86_from_bits. Qed.

Example C86_mux3_case : demo [num 2; num 1; num 0 : Num 13]
  (c_mux3 [cvar (Some (num 2)) (Aux 0); cvar (Some (num 1)) (Aux 1); cvar (Some n0) (Aux 2)] [map num [1; 2; 3; 5; 0; 0; 0; 0]%Z])
  (fun s r => map (ceval s) r = [num 7]).
Proof. exact case_C86_mux3. Qed.

Example C86_mul_asserted_case : insub toy2 (e73 1 56) /\ free_bits [v73 0 1; v73 1 0; v73 2 1; v73 3 1] /\
  demo [num 1; num 0; num 1; num 1] (pmapM cb_assert [v73 0 1; v73 1 0; v73 2 1; v73 3 1] ;;;
    ce_mul toy2 (cp_from_const (num 1) (num 56)) [v73 0 1; v73 1 0; v73 2 1; v73 3 1]) (fun s R => cpe s R = emul (jd toy2) 13 (e73 1 56)).
Proof. exact case_C86_mul_asserted. Qed.
