(** Generated from NumClaims.v by tools/genprops.py. *)
From Verif Require Import NumClaims.
Open Scope num_scope.

Theorem C01_linear : forall (p : positive), Prime p ->
 forall (a b : CNum p) (k : Num p),
  (forall s, s I0 = n1 ->
     ceval s (cadd a b) = ceval s a + ceval s b /\ ceval s (cadd_cap a b) = ceval s a + ceval s b /\
     ceval s (cadd_rv a b) = ceval s a + ceval s b /\ ceval s (csub a b) = ceval s a - ceval s b /\
     ceval s (cneg a) = - ceval s a /\ ceval s (cadd_num a k) = ceval s a + k /\
     ceval s (csub_num a k) = ceval s a - k /\ ceval s (num_csub k a) = k - ceval s a /\
     ceval s (cmul_num a k) = ceval s a * k) /\
  (forall va vb, cvalue a = Some va -> cvalue b = Some vb ->
     cvalue (cadd a b) = Some (va + vb) /\ cvalue (cadd_cap a b) = Some (va + vb) /\
     cvalue (cadd_rv a b) = Some (va + vb) /\ cvalue (csub a b) = Some (va - vb) /\
     cvalue (cneg a) = Some (- va) /\ cvalue (cadd_num a k) = Some (va + k) /\
     cvalue (csub_num a k) = Some (va - k) /\ cvalue (num_csub k a) = Some (k - va) /\
     cvalue (cmul_num a k) = Some (va * k)) /\
  (k <> n0 -> exists r, cdiv_num a k = Ok r /\
     (forall s, ceval s r * k = ceval s a) /\
     (forall va, cvalue a = Some va -> exists vr, cvalue r = Some vr /\ vr * k = va)) /\
  (cvalue a <> None \/ clc a <> [] -> cdiv_num a n0 = Panic).
Proof. exact claim_C01_linear. Qed.
Print Assumptions C01_linear.

Theorem C03_as_const_exact : forall (p : positive), Prime p ->
 forall (a : CNum p), canonical (clc a) ->
  (forall v, as_const a = Some v <-> (forall s, s I0 = n1 -> ceval s a = v)) /\
  (as_const a = None <-> exists s s', s I0 = n1 /\ s' I0 = n1 /\ ceval s a <> ceval s' a).
Proof. exact claim_C03_as_const_exact. Qed.
Print Assumptions C03_as_const_exact.

Theorem C04_operand_order : forall (p : positive), Prime p ->
 forall (a b : CNum p), canonical (clc a) -> canonical (clc b) ->
  cadd b a = cadd a b /\ cadd_cap a b = cadd a b /\ cadd_cap b a = cadd a b /\
  cadd_rv a b = cadd a b /\ cadd_rv b a = cadd a b.
Proof. exact claim_C04_operand_order. Qed.
Print Assumptions C04_operand_order.

Theorem C06_mul : forall (p : positive), Prime p ->
 forall (U : list Index) (a b : CNum p), In I0 U -> owned U a -> owned U b ->
  sound_for U (cmul a b) (fun s r => ceval s r = ceval s a * ceval s b) /\
  complete_for U (cmul a b) (fun s => valued s a /\ valued s b)
    (fun s r => valued s r /\ ceval s r = ceval s a * ceval s b) /\
  (blank a -> blank b -> synth_for U (cmul a b) (fun k n r => blank r /\
     (as_const a = None -> as_const b = None -> k = 1%nat /\ n = 1%nat) /\
     (as_const a <> None \/ as_const b <> None -> k = 0%nat /\ n = 0%nat))).
Proof. exact claim_C06_mul. Qed.
Print Assumptions C06_mul.

Theorem C07_div : forall (p : positive), Prime p ->
 forall (U : list Index) (a b : CNum p), In I0 U -> owned U a -> owned U b -> as_const a = None ->
  sound_for U (cdiv a b) (fun s r => ceval s r * ceval s b = ceval s a) /\
  complete_for U (cdiv a b) (fun s => valued s a /\ valued s b /\ ceval s b <> n0)
    (fun s r => valued s r /\ ceval s r * ceval s b = ceval s a) /\
  (blank a -> blank b -> as_const b <> Some n0 -> synth_for U (cdiv a b) (fun k n r => blank r /\
     (as_const b = None -> k = 1%nat /\ n = 1%nat) /\ (as_const b <> None -> k = 0%nat /\ n = 0%nat))).
Proof. exact claim_C07_div. Qed.
Print Assumptions C07_div.

Theorem C08_div_const_actual : forall (p : positive), Prime p ->
 forall (U : list Index) (a b : CNum p) (k : Num p), In I0 U -> owned U a -> owned U b -> as_const a = Some k ->
  (k <> n0 -> sound_for U (cdiv a b) (fun s r => ceval s r * ceval s a = ceval s b)) /\
  (k = n0 -> cvalue b <> None \/ clc b <> [] -> cdiv a b = PPanic).
Proof. exact claim_C08_div_const_actual. Qed.
Print Assumptions C08_div_const_actual.

Theorem C09_is_zero : forall (p : positive), Prime p ->
 forall (U : list Index) (a : CNum p), In I0 U -> owned U a ->
  sound_for U (cis_zero a) (fun s r =>
    (ceval s a = n0 -> ceval s r = n1) /\ (ceval s a <> n0 -> ceval s r = n0)) /\
  complete_for U (cis_zero a) (fun s => valued s a) (fun s r => valued s r /\
    (ceval s a = n0 -> ceval s r = n1) /\ (ceval s a <> n0 -> ceval s r = n0)) /\
  (blank a -> synth_for U (cis_zero a) (fun k n r => blank r /\
     (as_const a = None -> k = 3%nat /\ n = 3%nat))).
Proof. exact claim_C09_is_zero. Qed.
Print Assumptions C09_is_zero.

Theorem C09_is_eq : forall (p : positive), Prime p ->
 forall (U : list Index) (a b : CNum p), In I0 U -> owned U a -> owned U b ->
  sound_for U (cis_eq a b) (fun s r =>
    (ceval s a = ceval s b -> ceval s r = n1) /\ (ceval s a <> ceval s b -> ceval s r = n0)) /\
  complete_for U (cis_eq a b) (fun s => valued s a /\ valued s b) (fun s r => valued s r /\
    (ceval s a = ceval s b -> ceval s r = n1) /\ (ceval s a <> ceval s b -> ceval s r = n0)).
Proof. exact claim_C09_is_eq. Qed.
Print Assumptions C09_is_eq.

Theorem C10_assertions : forall (p : positive), Prime p ->
 forall (U : list Index) (a b : CNum p) (k : Num p), In I0 U -> owned U a -> owned U b ->
  (sound_for U (cassert_const a k) (fun s _ => ceval s a = k) /\
   complete_for U (cassert_const a k) (fun s => valued s a /\ ceval s a = k) (fun _ _ => True)) /\
  (sound_for U (cassert_zero a) (fun s _ => ceval s a = n0) /\
   complete_for U (cassert_zero a) (fun s => valued s a /\ ceval s a = n0) (fun _ _ => True)) /\
  (sound_for U (cassert_eq a b) (fun s _ => ceval s a = ceval s b) /\
   complete_for U (cassert_eq a b) (fun s => valued s a /\ valued s b /\ ceval s a = ceval s b) (fun _ _ => True)) /\
  (sound_for U (cassert_nonzero a) (fun s _ => ceval s a <> n0) /\
   complete_for U (cassert_nonzero a) (fun s => valued s a /\ ceval s a <> n0) (fun _ _ => True)) /\
  (sound_for U (cassert_bit a) (fun s _ => ceval s a = n0 \/ ceval s a = n1) /\
   complete_for U (cassert_bit a) (fun s => valued s a /\ (ceval s a = n0 \/ ceval s a = n1)) (fun _ _ => True)).
Proof. exact claim_C10_assertions. Qed.
Print Assumptions C10_assertions.

Theorem C11_switch : forall (p : positive), Prime p ->
 forall (U : list Index) (a bit b : CNum p), In I0 U -> owned U a -> owned U bit -> owned U b ->
  sound_for U (cswitch a bit b) (fun s r =>
    (ceval s bit = n1 -> ceval s r = ceval s a) /\ (ceval s bit = n0 -> ceval s r = ceval s b)) /\
  complete_for U (cswitch a bit b)
    (fun s => valued s a /\ valued s bit /\ valued s b /\ (ceval s bit = n0 \/ ceval s bit = n1))
    (fun s r => valued s r /\
    (ceval s bit = n1 -> ceval s r = ceval s a) /\ (ceval s bit = n0 -> ceval s r = ceval s b)) /\
  (blank a -> blank bit -> blank b -> (forall v, as_const bit = Some v -> v = n0 \/ v = n1) ->
   synth_for U (cswitch a bit b) (fun k n r => blank r /\
     (as_const bit <> None -> k = 0%nat /\ n = 0%nat))).
Proof. exact claim_C11_switch. Qed.
Print Assumptions C11_switch.

Theorem C08_div_const_refuted :  exists (p : positive) (a b : CNum p) (s : Index -> Num p) (r : CNum p),
    Prime p /\ owned [I0] a /\ owned [I0] b /\ s I0 = n1 /\ ceval s a <> n0 /\ ceval s b <> n0 /\
    exec [I0] (cdiv a b) [] (Some r) /\ ceval s r * ceval s b <> ceval s a.
Proof. exact claim_C08_div_const_refuted. Qed.
Print Assumptions C08_div_const_refuted.

Theorem C14_bool_alloc_refuted :  exists (p : positive) (tr : list (event p)) (b : CBool p) (s : Index -> Num p),
    Prime p /\ exec [I0] (cballoc (Some true)) tr (Some b) /\ s I0 = n1 /\ sat s tr /\
    ceval s b <> n0 /\ ceval s b <> n1.
Proof. exact claim_C14_bool_alloc_refuted. Qed.
Print Assumptions C14_bool_alloc_refuted.

Theorem C14_bool_assert : forall (p : positive), Prime p -> forall (U : list Index) (v : option bool), In I0 U ->
  sound_for U (b <-- @cballoc p v ;; cb_assert b ;;; Ret b) (fun s b => ceval s b = n0 \/ ceval s b = n1).
Proof. exact claim_C14_bool_assert. Qed.
Print Assumptions C14_bool_assert.

Example C01_linear_case :  map (fun kv => (fst kv, nval (snd kv))) (clc (cadd x13 (csub_num y13 (num 3)))) = [(I0, 10%Z); (Aux 0, 1%Z); (Aux 1, 1%Z)] /\
  option_map nval (cvalue (cadd x13 (csub_num y13 (num 3)))) = Some 9%Z /\ cdiv_num x13 (num 2) <> Panic /\
  cdiv_num x13 n0 = Panic.
Proof. exact case_C01_linear. Qed.

Example C03_as_const_exact_case :  canonical (clc (csub x13 x13)) /\ as_const (csub x13 x13) = Some n0 /\ canonical (clc x13) /\ as_const x13 = None.
Proof. exact case_C03_as_const_exact. Qed.

Example C04_operand_order_case :  canonical (clc x13) /\ canonical (clc (cadd_num x13 (num 3))) /\
  ccap x13 <> ccap (cadd_num x13 (num 3)).
Proof. exact case_C04_operand_order. Qed.

Example C06_mul_case : owned U13 x13 /\ owned U13 y13 /\
  demo [num 5; num 7] (cmul x13 y13) (fun s r => ceval s r = num 9 /\ as_const r = None).
Proof. exact case_C06_mul. Qed.

Example C07_div_case : owned U13 x13 /\ owned U13 y13 /\ as_const x13 = None /\
  demo [num 5; num 7] (cdiv x13 y13) (fun s r => ceval s r = num 10 /\ ceval s y13 = num 7).
Proof. exact case_C07_div. Qed.

Example C08_div_const_actual_case :  demo [num 5; num 7] (cdiv (cconst (num 2)) y13) (fun s r => ceval s r * num 2 = num 7 /\ ceval s r * num 7 <> num 2).
Proof. exact case_C08_div_const_actual. Qed.

Example C09_is_zero_case : owned U13 x13 /\ owned U13 y13 /\
  demo [num 5; num 7] (cis_zero x13) (fun s r => ceval s r = n0) /\
  demo [num 5; num 7] (cis_zero (csub_num x13 (num 5))) (fun s r => ceval s r = n1).
Proof. exact case_C09_is_zero. Qed.

Example C09_is_eq_case :  demo [num 5; num 7] (cis_eq x13 y13) (fun s r => ceval s r = n0) /\
  demo [num 5; num 7] (cis_eq (cadd_num x13 (num 2)) y13) (fun s r => ceval s r = n1).
Proof. exact case_C09_is_eq. Qed.

Example C10_assertions_case :  demo [num 5; num 7] (cassert_const x13 (num 5) ;;; cassert_nonzero y13 ;;; cassert_eq (cadd_num x13 (num 2)) y13 ;;;
                       cassert_bit (csub_num x13 (num 4)) ;;; cassert_zero (csub_num y13 (num 7))) (fun s _ => ceval s x13 = num 5).
Proof. exact case_C10_assertions. Qed.

Example C11_switch_case :  demo [num 5; num 7] (cswitch x13 (csub_num x13 (num 4)) y13) (fun s r => ceval s r = num 5) /\
  demo [num 5; num 7] (cswitch x13 (csub_num x13 (num 5)) y13) (fun s r => ceval s r = num 7).
Proof. exact case_C11_switch. Qed.

Example C14_bool_assert_case :  demo [] (b <-- @cballoc 13 (Some true) ;; cb_assert b ;;; Ret b) (fun s b => ceval s b = n1).
Proof. exact case_C14_bool_assert. Qed.
