(** Generated from BitClaims.v by tools/genprops.py. *)
From Verif Require Import BitClaims.
Open Scope num_scope.

Theorem C15_into_bits_sound : forall (p : positive), Prime p ->
 forall (U : list Index) (x : CNum p) (n : nat), In I0 U -> owned U x -> (1 <= n)%nat ->
  sound_for U (c_into_bits_le x n) (fun s bits =>
    exists bs, length bs = n /\ ebits s bits bs /\ ceval s x = num (bval bs) /\
      ((2 ^ Z.of_nat n <= Zpos p)%Z -> bval bs = nval (ceval s x) /\ (nval (ceval s x) < 2 ^ Z.of_nat n)%Z /\
          forall bs', length bs' = n -> ebits s bits bs' -> bs' = bits_of n (nval (ceval s x)))).
Proof. exact claim_C15_into_bits_sound. Qed.
Print Assumptions C15_into_bits_sound.

Theorem C15_into_bits_complete : forall (p : positive), Prime p ->
 forall (U : list Index) (x : CNum p) (n : nat), In I0 U -> owned U x ->
  (1 <= n <= num_bits p)%nat ->
  complete_for U (c_into_bits_le x n)
    (fun s => valued s x /\ (nval (ceval s x) < 2 ^ Z.of_nat n)%Z)
    (fun s bits => Forall (valued s) bits /\ ebits s bits (bits_of n (nval (ceval s x)))) /\
  (blank x -> (forall v, as_const x = Some v -> (nval v < 2 ^ Z.of_nat n)%Z) ->
   synth_for U (c_into_bits_le x n) (fun k m bits => Forall blank bits /\ length bits = n /\
     (as_const x = None -> k = (n - 1)%nat /\ m = n) /\ (as_const x <> None -> k = 0%nat /\ m = 0%nat))).
Proof. exact claim_C15_into_bits_complete. Qed.
Print Assumptions C15_into_bits_complete.

Theorem C16_into_bits_strict : forall (p : positive), Prime p ->
 forall (U : list Index) (x : CNum p), In I0 U -> owned U x -> (4 <= num_bits p)%nat ->
  sound_for U (c_into_bits_le_strict x) (fun s bits => ebits s bits (bits_of (num_bits p) (nval (ceval s x)))) /\
  complete_for U (c_into_bits_le_strict x) (fun s => valued s x)
    (fun s bits => Forall (valued s) bits /\ ebits s bits (bits_of (num_bits p) (nval (ceval s x)))) /\
  (blank x -> synth_for U (c_into_bits_le_strict x) (fun k m bits => Forall blank bits /\ length bits = num_bits p /\
     (as_const x = None -> m = (num_bits p + (Nat.div2 (num_bits p) + (Nat.div2 (num_bits p) + num_bits p mod 2) + 1) + 1)%nat))).
Proof. exact claim_C16_into_bits_strict. Qed.
Print Assumptions C16_into_bits_strict.

(** [n] is the number of bits; the field is large enough for the comparison
    to fit, which holds for all n <= num_bits when the field has >= 4 bits. *)
Theorem C17_comp_constant : forall (p : positive), Prime p ->
 forall (U : list Index) (sig : list (CBool p)) (ct : Num p), In I0 U ->
  Forall (owned U) sig -> (3 <= Zpos p)%Z ->
  let n := length sig in let h := (Nat.div2 n + n mod 2)%nat in
  (2 ^ Z.of_nat (h + 1) <= Zpos p)%Z -> (nval ct < 2 ^ Z.of_nat (2 * h))%Z ->
  sound_for U (c_comp_constant sig ct) (fun s r => forall bs, ebits s sig bs ->
    ((nval ct < bval bs)%Z -> ceval s r = n1) /\ ((bval bs <= nval ct)%Z -> ceval s r = n0)) /\
  ((0 < n <= 64 * num_limbs p)%nat ->
   complete_for U (c_comp_constant sig ct)
    (fun s => Forall (valued s) sig /\ exists bs, ebits s sig bs)
    (fun s r => valued s r /\ forall bs, ebits s sig bs ->
      ((nval ct < bval bs)%Z -> ceval s r = n1) /\ ((bval bs <= nval ct)%Z -> ceval s r = n0))).
Proof. exact claim_C17_comp_constant. Qed.
Print Assumptions C17_comp_constant.

(** What is computed for every constant: the comparison with its low bits. *)
Theorem C18_comp_constant_actual : forall (p : positive), Prime p ->
 forall (U : list Index) (sig : list (CBool p)) (ct : Num p), In I0 U ->
  Forall (owned U) sig -> (3 <= Zpos p)%Z ->
  let n := length sig in let h := (Nat.div2 n + n mod 2)%nat in
  (2 ^ Z.of_nat (h + 1) <= Zpos p)%Z ->
  sound_for U (c_comp_constant sig ct) (fun s r => forall bs, ebits s sig bs ->
    ceval s r = if (nval ct mod 2 ^ Z.of_nat (2 * h) <? bval bs)%Z then n1 else n0).
Proof. exact claim_C18_comp_constant_actual. Qed.
Print Assumptions C18_comp_constant_actual.

Theorem C19_from_bits : forall (p : positive), Prime p ->
 forall (bits : list (CBool p)),
  (bits <> [] -> exists r, c_from_bits_le bits = Ok r /\
     (forall s, s I0 = n1 -> Forall (fun c => canonical (clc c)) bits ->
        forall bs, ebits s bits bs -> ceval s r = num (bval bs))) /\
  (bits = [] -> c_from_bits_le bits = Panic).
Proof. exact claim_C19_from_bits. Qed.
Print Assumptions C19_from_bits.

(** Recomposition inverts both decompositions. *)
Theorem C19_from_into_bits : forall (p : positive), Prime p ->
 forall (U : list Index) (x : CNum p) (n : nat), In I0 U -> owned U x ->
  ((1 <= n)%nat -> sound_for U (bits <-- c_into_bits_le x n ;; plift (c_from_bits_le bits))
      (fun s r => ceval s r = ceval s x)) /\
  ((4 <= num_bits p)%nat -> sound_for U (bits <-- c_into_bits_le_strict x ;; plift (c_from_bits_le bits))
      (fun s r => ceval s r = ceval s x)).
Proof. exact claim_C19_from_into_bits. Qed.
Print Assumptions C19_from_into_bits.

Theorem C20_mux3 : forall (p : positive), Prime p ->
 forall (U : list Index) (b0 b1 b2 : CBool p) (c : list (list (Num p))), In I0 U ->
  owned U b0 -> owned U b1 -> owned U b2 ->
  (forall (x y z : bool), sound_for U (c_mux3 [b0; b1; b2] c) (fun s r =>
     ceval s b0 = nbool x -> ceval s b1 = nbool y -> ceval s b2 = nbool z ->
     Forall2 (fun o col => ceval s o = nth (Nat.b2n x + 2 * Nat.b2n y + 4 * Nat.b2n z) col n0) r c)) /\
  (Forall (fun col => length col = 8%nat) c ->
   complete_for U (c_mux3 [b0; b1; b2] c) (fun s => valued s b0 /\ valued s b1 /\ valued s b2)
     (fun s r => Forall (valued s) r /\
        forall x y z : bool, ceval s b0 = nbool x -> ceval s b1 = nbool y -> ceval s b2 = nbool z ->
        Forall2 (fun o col => ceval s o = nth (Nat.b2n x + 2 * Nat.b2n y + 4 * Nat.b2n z) col n0) r c)) /\
  (~ Forall (fun col => length col = 8%nat) c -> c_mux3 [b0; b1; b2] c = PPanic) /\
  (forall sel, length sel <> 3%nat -> c_mux3 sel c = PPanic).
Proof. exact claim_C20_mux3. Qed.
Print Assumptions C20_mux3.

(** Over the field with 13 elements the one-bit number 1 is reported greater
    than the constant 4. *)
Theorem C18_comp_constant_large_refuted :  exists (p : positive) (sig : list (CBool p)) (bs : list bool) (ct : Num p) tr r s,
    Prime p /\ exec [I0; Aux 0] (c_comp_constant sig ct) tr (Some r) /\ s I0 = n1 /\ sat s tr /\
    ebits s sig bs /\ (bval bs < nval ct)%Z /\ ceval s r = n1.
Proof. exact claim_C18_comp_constant_large_refuted. Qed.
Print Assumptions C18_comp_constant_large_refuted.

Example C15_into_bits_sound_case : (2 ^ Z.of_nat 5 <= Zpos 37)%Z /\
  demo [num 22] (c_into_bits_le x37 5) (fun s r => map (ceval s) r = [n0; n1; n1; n0; n1]).
Proof. exact case_C15_into_bits_sound. Qed.

Example C15_into_bits_complete_case : (1 <= 6 <= num_bits 37)%nat /\
  demo [num 22] (c_into_bits_le x37 6) (fun s r => map (ceval s) r = [n0; n1; n1; n0; n1; n0]).
Proof. exact case_C15_into_bits_complete. Qed.

Example C16_into_bits_strict_case : (4 <= num_bits 37)%nat /\
  demo [num 22] (c_into_bits_le_strict x37) (fun s r => map (ceval s) r = [n0; n1; n1; n0; n1; n0]).
Proof. exact case_C16_into_bits_strict. Qed.

Example C17_comp_constant_case :  demo [n1; n0; n1] (r1 <-- c_comp_constant bvec37 (num 4) ;; r2 <-- c_comp_constant bvec37 (num 5) ;; Ret [r1; r2])
    (fun s r => map (ceval s) r = [n1; n0]).
Proof. exact case_C17_comp_constant. Qed.

Example C18_comp_constant_actual_case :  demo [n1; n0; n1] (r1 <-- c_comp_constant bvec37 (num 20) ;; Ret [r1]) (fun s r => map (ceval s) r = [n1]).
Proof. exact case_C18_comp_constant_actual. Qed.

Example C19_from_bits_case :  demo [n1; n0; n1] (r <-- plift (c_from_bits_le bvec37) ;; Ret [r]) (fun s r => map (ceval s) r = [num 5]).
Proof. exact case_C19_from_bits. Qed.

Example C19_from_into_bits_case :  demo [num 22] (bits <-- c_into_bits_le_strict x37 ;; r <-- plift (c_from_bits_le bits) ;; Ret [r])
    (fun s r => map (ceval s) r = [num 22]).
Proof. exact case_C19_from_into_bits. Qed.

Example C20_mux3_case :  demo [n1; n0; n1] (c_mux3 bvec37 [map num [10; 11; 12; 13; 14; 15; 16; 17]%Z; map num [20; 21; 22; 23; 24; 25; 26; 27]%Z])
    (fun s r => map (ceval s) r = [num 15; num 25]).
Proof. exact case_C20_mux3. Qed.
