(** Generated from PoseidonClaims.v by tools/genprops.py. *)
From Verif Require Import PoseidonClaims.
Open Scope num_scope.

Theorem C21_poseidon : forall (p : positive), Prime p ->
 forall (U : list Index) (P : PoseidonParams p) (ins : list (CNum p)),
  In I0 U -> Forall (owned U) ins ->
  sound_for U (c_poseidon P ins) (fun s r => poseidon P (map (ceval s) ins) = Ok (ceval s r)) /\
  (pp_ok P /\ (0 < length ins <= ppt P)%nat -> complete_for U (c_poseidon P ins) (fun s => Forall (valued s) ins)
     (fun s r => valued s r /\ poseidon P (map (ceval s) ins) = Ok (ceval s r))) /\
  (pp_ok P /\ (0 < length ins <= ppt P)%nat -> Forall blank ins ->
     synth_for U (c_poseidon P ins) (fun _ _ r => blank r)).
Proof. exact claim_C21_poseidon. Qed.
Print Assumptions C21_poseidon.

Theorem C21_poseidon_panics : forall (p : positive), Prime p ->
 forall (P : PoseidonParams p) (ins : list (CNum p)) (vals : list (Num p)),
  (length ins = 0%nat \/ (ppt P < length ins)%nat -> c_poseidon P ins = PPanic) /\
  (length vals = 0%nat \/ (ppt P < length vals)%nat -> poseidon P vals = Panic) /\
  (pp_ok P -> (0 < length vals <= ppt P)%nat -> poseidon P vals <> Panic).
Proof. exact claim_C21_poseidon_panics. Qed.
Print Assumptions C21_poseidon_panics.

Theorem C22_poseidon_with_salt : forall (p : positive), Prime p ->
 forall (U : list Index) (P : PoseidonParams p) (ins : list (CNum p)) (salt : Num p),
  In I0 U -> Forall (owned U) ins ->
  (sound_for U (c_poseidon_with_salt P ins salt) (fun s r => poseidon_with_salt P (map (ceval s) ins) salt = Ok (ceval s r)) /\
  (pp_ok P /\ (0 < length ins < ppt P)%nat -> complete_for U (c_poseidon_with_salt P ins salt) (fun s => Forall (valued s) ins)
     (fun s r => valued s r /\ poseidon_with_salt P (map (ceval s) ins) salt = Ok (ceval s r))) /\
  (pp_ok P /\ (0 < length ins < ppt P)%nat -> Forall blank ins ->
     synth_for U (c_poseidon_with_salt P ins salt) (fun _ _ r => blank r))) /\
  (length ins = 0%nat \/ (ppt P <= length ins)%nat -> c_poseidon_with_salt P ins salt = PPanic /\
     forall vals : list (Num p), length vals = length ins -> poseidon_with_salt P vals salt = Panic).
Proof. exact claim_C22_poseidon_with_salt. Qed.
Print Assumptions C22_poseidon_with_salt.

Theorem C23_zero_padding : forall (p : positive), Prime p ->
 forall (P : PoseidonParams p) (ins : list (Num p)) (n : nat),
  (0 < length ins)%nat -> (length ins + n <= ppt P)%nat ->
  poseidon P (ins ++ repeat n0 n) = poseidon P ins /\
  ((0 < n)%nat -> ins ++ repeat n0 n <> ins).
Proof. exact claim_C23_zero_padding. Qed.
Print Assumptions C23_zero_padding.

Theorem C24_merkle_proof : forall (p : positive), Prime p ->
 forall (U : list Index) (P : PoseidonParams p) (leaf : CNum p) (sib : list (CNum p)) (path : list (CBool p)),
  In I0 U -> owned U leaf -> Forall (owned U) sib -> Forall (owned U) path -> length path = length sib ->
  let g := c_poseidon_merkle_proof_root P leaf sib path in
  sound_for U g (fun s r => forall bs, ebits s path bs ->
     poseidon_merkle_proof_root P (ceval s leaf) (map (ceval s) sib) bs = Ok (ceval s r)) /\
  (pp_ok P /\ (2 <= ppt P)%nat ->
   complete_for U g (fun s => valued s leaf /\ Forall (valued s) sib /\ Forall (valued s) path /\ exists bs, ebits s path bs)
     (fun s r => valued s r /\ forall bs, ebits s path bs ->
       poseidon_merkle_proof_root P (ceval s leaf) (map (ceval s) sib) bs = Ok (ceval s r))) /\
  (pp_ok P /\ (2 <= ppt P)%nat -> blank leaf /\ Forall blank sib /\ Forall blank path /\
     Forall (fun c => forall v, as_const c = Some v -> isbit v) path -> synth_for U g (fun _ _ r => blank r)).
Proof. exact claim_C24_merkle_proof. Qed.
Print Assumptions C24_merkle_proof.

(** A prover who may choose sibling and path can put any pair below the root. *)
Theorem C25_merkle_forge : forall (p : positive), Prime p ->
 forall (U : list Index) (P : PoseidonParams p) (leaf sib path : CNum p) (lv a b : Num p),
  In I0 U -> owned U leaf -> owned U sib -> owned U path -> as_const path = None ->
  pp_ok P -> (2 <= ppt P)%nat -> a + b <> lv + lv ->
  complete_for U (c_poseidon_merkle_proof_root P leaf [sib] [path])
    (fun s => valued s leaf /\ valued s sib /\ valued s path /\
       ceval s leaf = lv /\ ceval s sib = a + b - lv /\ ceval s path = fdiv (a - lv) (a + b - lv - lv))
    (fun s r => poseidon P [a; b] = Ok (ceval s r)).
Proof. exact claim_C25_merkle_forge. Qed.
Print Assumptions C25_merkle_forge.

Theorem C26_tree_root_native : forall (p : positive), Prime p ->
 forall (P : PoseidonParams p), pp_ok P -> (2 <= ppt P)%nat ->
  exists h : Num p -> Num p -> Num p, (forall a b, poseidon P [a; b] = Ok (h a b)) /\
  forall leaf : list (Num p), (0 < length leaf)%nat ->
    let d := bit_len (length leaf - 1) in
    poseidon_merkle_tree_root P leaf = Ok (node h leaf d 0) /\
    (length leaf <= 2 ^ d)%nat /\ (forall d', (length leaf <= 2 ^ d')%nat -> (d <= d')%nat) /\
    forall i, (i < 2 ^ d)%nat ->
      poseidon_merkle_proof_root P (nth i leaf n0)
        (map (fun j => node h leaf j (Nat.lxor (i / 2 ^ j) 1)) (seq 0 d)) (map (Nat.testbit i) (seq 0 d))
      = poseidon_merkle_tree_root P leaf.
Proof. exact claim_C26_tree_root_native. Qed.
Print Assumptions C26_tree_root_native.

Theorem C26_tree_root_circuit : forall (p : positive), Prime p ->
 forall (U : list Index) (P : PoseidonParams p) (leaf : list (CNum p)),
  In I0 U -> Forall (owned U) leaf ->
  let g := c_poseidon_merkle_tree_root P leaf in
  sound_for U g (fun s r => poseidon_merkle_tree_root P (map (ceval s) leaf) = Ok (ceval s r)) /\
  (pp_ok P /\ (2 <= ppt P)%nat /\ (0 < length leaf)%nat -> complete_for U g (fun s => Forall (valued s) leaf)
     (fun s r => valued s r /\ poseidon_merkle_tree_root P (map (ceval s) leaf) = Ok (ceval s r))) /\
  (pp_ok P /\ (2 <= ppt P)%nat /\ (0 < length leaf)%nat -> Forall blank leaf -> synth_for U g (fun _ _ r => blank r)).
Proof. exact claim_C26_tree_root_circuit. Qed.
Print Assumptions C26_tree_root_circuit.

Theorem C61_poseidon_count : forall (p : positive), Prime p ->
 forall (U : list Index) (P : PoseidonParams p) (ins : list (CNum p)),
  In I0 U -> Forall (owned U) ins -> Forall blank ins -> Forall (fun c => as_const c = None) ins ->
  pp_ok P -> Forall (fun row => nth 0 row n0 <> n0) (ppm P) -> (2 <= ppf P)%nat -> (0 < length ins <= ppt P)%nat ->
  synth_for U (c_poseidon P ins) (fun k n r => as_const r = None /\
     k = (3 * (length ins + ppt P * (ppf P - 1) + ppp P))%nat /\ n = (3 * (length ins + ppt P * (ppf P - 1) + ppp P))%nat).
Proof. exact claim_C61_poseidon_count. Qed.
Print Assumptions C61_poseidon_count.

Theorem C61_merkle_count : forall (p : positive), Prime p ->
 forall (U : list Index) (P : PoseidonParams p) (leaf : CNum p) (sib : list (CNum p)) (path : list (CBool p)),
  In I0 U -> owned U leaf -> Forall (owned U) sib -> Forall (owned U) path -> length path = length sib ->
  blank leaf -> Forall blank sib -> Forall blank path -> Forall (fun c => as_const c = None) path ->
  (forall c sib', sib = c :: sib' -> as_const (csub c leaf) = None) ->
  pp_ok P -> Forall (fun row => nth 0 row n0 <> n0) (ppm P) -> (2 <= ppf P)%nat -> (2 <= ppt P)%nat ->
  synth_for U (c_poseidon_merkle_proof_root P leaf sib path) (fun k n _ =>
     k = (length sib * (1 + 3 * (2 + ppt P * (ppf P - 1) + ppp P)))%nat /\
     n = (length sib * (1 + 3 * (2 + ppt P * (ppf P - 1) + ppp P)))%nat).
Proof. exact claim_C61_merkle_count. Qed.
Print Assumptions C61_merkle_count.

(** The figures of README.md: Poseidon (4, 8, 54) on three inputs, a Merkle
    proof of 32 levels over Poseidon (3, 8, 53). *)
Theorem C61_readme_hashes : forall (p : positive), Prime p ->
 forall (U : list Index) (P4 P3 : PoseidonParams p) (ins : list (CNum p))
    (leaf : CNum p) (sib : list (CNum p)) (path : list (CBool p)),
  In I0 U -> Forall (owned U) ins -> Forall blank ins -> Forall (fun c => as_const c = None) ins -> length ins = 3%nat ->
  owned U leaf -> Forall (owned U) sib -> Forall (owned U) path -> length path = 32%nat -> length sib = 32%nat ->
  blank leaf -> Forall blank sib -> Forall blank path -> Forall (fun c => as_const c = None) path ->
  as_const (csub (nth 0 sib czero) leaf) = None ->
  pp_ok P4 -> (ppt P4, ppf P4, ppp P4) = (4, 8, 54)%nat -> Forall (fun row => nth 0 row n0 <> n0) (ppm P4) ->
  pp_ok P3 -> (ppt P3, ppf P3, ppp P3) = (3, 8, 53)%nat -> Forall (fun row => nth 0 row n0 <> n0) (ppm P3) ->
  synth_for U (c_poseidon P4 ins) (fun _ n _ => n = 255%nat) /\
  synth_for U (c_poseidon_merkle_proof_root P3 leaf sib path) (fun _ n _ => Z.of_nat n = 7328%Z).
Proof. exact claim_C61_readme_hashes. Qed.
Print Assumptions C61_readme_hashes.

(** Bit decomposition. *)
Theorem C61_bits_count : forall (p : positive), Prime p ->
 forall (U : list Index) (x : CNum p) (n : nat), In I0 U -> owned U x -> blank x -> as_const x = None ->
  ((1 <= n <= num_bits p)%nat -> synth_for U (c_into_bits_le x n) (fun k m _ => k = (n - 1)%nat /\ m = n)) /\
  ((4 <= num_bits p)%nat -> synth_for U (c_into_bits_le_strict x) (fun _ m _ =>
     m = (num_bits p + (Nat.div2 (num_bits p) + (Nat.div2 (num_bits p) + num_bits p mod 2) + 1) + 1)%nat)).
Proof. exact claim_C61_bits_count. Qed.
Print Assumptions C61_bits_count.

(** The gadget does not force the path to be boolean. *)
Theorem C25_merkle_binds_leaf_refuted : exists (p : positive) (U : list Index) (P : PoseidonParams p) (leaf sib path : CNum p),
  Prime p /\ In I0 U /\ owned U leaf /\ owned U sib /\ owned U path /\ pp_ok P /\ (2 <= ppt P)%nat /\
  ~ sound_for U (c_poseidon_merkle_proof_root P leaf [sib] [path]) (fun s r => isbit (ceval s path)) /\
  ~ sound_for U (c_poseidon_merkle_proof_root P leaf [sib] [path]) (fun s r =>
      exists b, poseidon_merkle_proof_root P (ceval s leaf) [ceval s sib] [b] = Ok (ceval s r)).
Proof. exact claim_C25_merkle_binds_leaf_refuted. Qed.
Print Assumptions C25_merkle_binds_leaf_refuted.

Example C21_poseidon_case : pp_ok P37 /\ hval (poseidon P37 [num 22; num 9]) = 4%Z /\
  demo [num 22; num 9] (c_poseidon P37 [x37; y37]) (fun s r => ceval s r = num 4).
Proof. exact case_C21_poseidon. Qed.

Example C21_poseidon_panics_case : poseidon P37 [] = Panic /\ poseidon P37 [n1; n1; n1; n1] = Panic /\ c_poseidon P37 [] = PPanic.
Proof. exact case_C21_poseidon_panics. Qed.

Example C22_poseidon_with_salt_case : hval (poseidon_with_salt P37 [num 22; num 9] (num 3)) = 13%Z /\
  demo [num 22; num 9] (c_poseidon_with_salt P37 [x37; y37] (num 3)) (fun s r => ceval s r = num 13).
Proof. exact case_C22_poseidon_with_salt. Qed.

Example C23_zero_padding_case : hval (poseidon P37 [num 22]) = hval (poseidon P37 [num 22; n0; n0]) /\
  hval (poseidon P37 [num 22]) <> hval (poseidon P37 [num 22; n1]).
Proof. exact case_C23_zero_padding. Qed.

Example C24_merkle_proof_case : hval (poseidon_merkle_proof_root P37 (num 22) [num 9] [true]) = hval (poseidon P37 [num 9; num 22]) /\
  demo [num 22; num 9; n1] (c_poseidon_merkle_proof_root P37 x37 [y37] [b37])
    (fun s r => Z.eqb (hval (poseidon P37 [num 9; num 22])) (nval (ceval s r)) = true).
Proof. exact case_C24_merkle_proof. Qed.

Example C25_merkle_forge_case : num 3 + num 5 <> num 22 + num 22 :> Num 37 /\
  hval (poseidon P37 [num 3; num 5]) <> hval (poseidon P37 [num 22; num 9]).
Proof. exact case_C25_merkle_forge. Qed.

Example C26_tree_root_native_case : bit_len (3 - 1) = 2%nat /\
  hval (poseidon_merkle_tree_root P37 [num 22; num 9; num 5]) =
  hval (a <-? poseidon P37 [num 22; num 9] ; b <-? poseidon P37 [num 5; n0] ; poseidon P37 [a; b]) /\
  hval (poseidon_merkle_tree_root P37 [num 22; num 9; num 5]) <> (-1)%Z.
Proof. exact case_C26_tree_root_native. Qed.

Example C26_tree_root_circuit_case :  demo [num 22; num 9; n1] (c_poseidon_merkle_tree_root P37 [x37; y37; b37])
    (fun s r => Z.eqb (hval (poseidon_merkle_tree_root P37 [num 22; num 9; n1])) (nval (ceval s r)) = true).
Proof. exact case_C26_tree_root_circuit. Qed.

Example C61_poseidon_count_case : ncons (fst (run 2 (c_poseidon P37 [x37; y37]))) = 18%nat /\
  Forall (fun row => nth 0 row n0 <> n0) (ppm P37).
Proof. exact case_C61_poseidon_count. Qed.

Example C61_merkle_count_case : ncons (fst (run 3 (c_poseidon_merkle_proof_root P37 x37 [y37; y37] [b37; b37]))) = 38%nat.
Proof. exact case_C61_merkle_count. Qed.

Example C61_bits_count_case : ncons (fst (run 1 (c_into_bits_le_strict x37))) = 14%nat.
Proof. exact case_C61_bits_count. Qed.
