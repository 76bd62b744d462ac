(** Generated from BindClaims.v by tools/genprops.py. *)
From Verif Require Import BindClaims.
Open Scope num_scope.

(** Two proofs for the same path and root. *)
Theorem C66_proof_binding : forall (p : positive), Prime p ->
 forall (P : @PoseidonParams p) (path : list bool) (sib sib' : list (Num p)) (leaf leaf' root : Num p),
  length sib = length path -> length sib' = length path ->
  poseidon_merkle_proof_root P leaf sib path = Ok root -> poseidon_merkle_proof_root P leaf' sib' path = Ok root ->
  (leaf = leaf' /\ sib = sib') \/ collision P.
Proof. exact claim_C66_proof_binding. Qed.
Print Assumptions C66_proof_binding.

(** Two lists of leaves of the same length with the same root. *)
Theorem C66_tree_binding : forall (p : positive), Prime p ->
 forall (P : @PoseidonParams p) (leaf leaf' : list (Num p)) (root : Num p),
  pp_ok P -> (2 <= ppt P)%nat -> length leaf = length leaf' ->
  poseidon_merkle_tree_root P leaf = Ok root -> poseidon_merkle_tree_root P leaf' = Ok root ->
  leaf = leaf' \/ collision P.
Proof. exact claim_C66_tree_binding. Qed.
Print Assumptions C66_tree_binding.

(** A proof for index [i] of a tree: the leaf is the one in the tree, zero beyond
    the given leaves. *)
Theorem C66_membership : forall (p : positive), Prime p ->
 forall (P : @PoseidonParams p) (leaf : list (Num p)) (sib : list (Num p)) (v root : Num p) (i : nat),
  pp_ok P -> (2 <= ppt P)%nat -> poseidon_merkle_tree_root P leaf = Ok root -> (length leaf <= 2 ^ length sib < 2 * length leaf)%nat -> (i < 2 ^ length sib)%nat ->
  poseidon_merkle_proof_root P v sib (map (Nat.testbit i) (seq 0 (length sib))) = Ok root ->
  v = nth i leaf 0 \/ collision P.
Proof. exact claim_C66_membership. Qed.
Print Assumptions C66_membership.

(** The same in the circuit, for path signals that are the bits of [i]. *)
Theorem C66_membership_circuit : forall (p : positive), Prime p ->
 forall (U : list Index) (P : @PoseidonParams p) (leaf : CNum p) (sib : list (CNum p)) (path : list (CBool p))
    (leaves : list (Num p)) (i : nat),
  In I0 U -> owned U leaf -> Forall (owned U) sib -> Forall (owned U) path -> length path = length sib ->
  pp_ok P -> (2 <= ppt P)%nat -> (length leaves <= 2 ^ length sib < 2 * length leaves)%nat -> (i < 2 ^ length sib)%nat ->
  sound_for U (c_poseidon_merkle_proof_root P leaf sib path) (fun s r =>
    ebits s path (map (Nat.testbit i) (seq 0 (length sib))) -> poseidon_merkle_tree_root P leaves = Ok (ceval s r) ->
    ceval s leaf = nth i leaves 0 \/ collision P).
Proof. exact claim_C66_membership_circuit. Qed.
Print Assumptions C66_membership_circuit.

(** The root does not bind the number of leaves: zeros at the end and, one level
    up, the hash of two leaves. *)
Theorem C66_length_refuted : exists (p : positive) (P : @PoseidonParams p) (l1 l2 l3 l4 : list (Num p)) (r r' : Num p), Prime p /\ pp_ok P /\ (2 <= ppt P)%nat /\
  (length l1 < length l2)%nat /\ poseidon_merkle_tree_root P l1 = Ok r /\ poseidon_merkle_tree_root P l2 = Ok r /\
  (length l3 < length l4)%nat /\ poseidon_merkle_tree_root P l3 = Ok r' /\ poseidon_merkle_tree_root P l4 = Ok r'.
Proof. exact claim_C66_length_refuted. Qed.
Print Assumptions C66_length_refuted.

(** The accepted messages for given s, r and a: those whose hash is the same
    modulo the order of the subgroup. *)
Theorem C67_message : forall (p l : positive) (J : JubJub p l) (P : @PoseidonParams p) sqrt (s : Num l) (r a m m' : Num p),
  jubjub_ok J -> (forall a, match sqrt a with Some b => b * b = a | None => ~ is_square a end) ->
  full_bytes p = true -> full_bytes l = true -> pp_ok P -> (4 <= ppt P)%nat -> a <> 0 ->
  eddsaposeidon_verify P sqrt J s r a m = Ok true ->
  exists salt h h' b, from_seed SEED_EDDSA_POSEIDON = Ok salt /\ poseidon P [r; a; m; salt] = Ok h /\ poseidon P [r; a; m'; salt] = Ok h' /\
    eddsaposeidon_verify P sqrt J s r a m' = Ok b /\ (b = true <-> nval h mod Zpos l = nval h' mod Zpos l)%Z.
Proof. exact claim_C67_message. Qed.
Print Assumptions C67_message.

(** The key 0: the message is not looked at. *)
Theorem C67_zero_key : forall (p l : positive) (J : JubJub p l) (P : @PoseidonParams p) sqrt (s : Num l) (r m : Num p),
  jubjub_ok J -> (forall a, match sqrt a with Some b => b * b = a | None => ~ is_square a end) ->
  full_bytes p = true -> full_bytes l = true -> pp_ok P -> (4 <= ppt P)%nat ->
  exists b, eddsaposeidon_verify P sqrt J s r 0 m = Ok b /\ (b = true <-> r = ex (emul (jd J) (nval s) (jg J))).
Proof. exact claim_C67_zero_key. Qed.
Print Assumptions C67_zero_key.

(** The circuit accepts it too: for every message, with no key at all. *)
Theorem C67_zero_key_circuit : forall (p l : positive) (J : JubJub p l) (P : @PoseidonParams p) (sqrt : Num p -> option (Num p)) (s m : Num p),
  jubjub_ok J -> (8 < Zpos l)%Z -> (num_bits l < num_bits p)%nat -> full_bytes p = true -> full_bytes l = true ->
  (forall a, match sqrt a with Some b => b * b = a | None => ~ is_square a end) ->
  pp_ok P -> Forall (fun row => nth 0 row 0 <> 0) (ppm P) -> (2 <= ppf P)%nat -> (4 <= ppt P)%nat ->
  (nval s < Zpos l)%Z ->
  let r := ex (emul (jd J) (nval s) (jg J)) in
  demo [s; r; 0; m] (eddsa_gadget sqrt P J s r 0 m) (fun w out => ceval w out = 1).
Proof. exact claim_C67_zero_key_circuit. Qed.
Print Assumptions C67_zero_key_circuit.

(** What the native code signs, the circuit accepts. *)
Theorem C68_signed_accepted : forall (p l : positive) (J : JubJub p l) (P : @PoseidonParams p) (sqrt : Num p -> option (Num p)) (sk : Num l) (m : Num p),
  jubjub_ok J -> (8 < Zpos l < Zpos p)%Z -> (num_bits l < num_bits p)%nat -> full_bytes p = true -> full_bytes l = true ->
  (forall a, match sqrt a with Some b => b * b = a | None => ~ is_square a end) ->
  pp_ok P -> Forall (fun row => nth 0 row 0 <> 0) (ppm P) -> (2 <= ppf P)%nat -> (4 <= ppt P)%nat ->
  exists s r A, eddsaposeidon_sign P J sk m = Ok (s, r) /\ e_mul (jd J) (jg J) sk = Ok A /\
    let s' := num (nval s) : Num p in nval s' = nval s /\
    demo [s'; r; ex A; m] (eddsa_gadget sqrt P J s' r (ex A) m) (fun w out => ceval w out = 1).
Proof. exact claim_C68_signed_accepted. Qed.
Print Assumptions C68_signed_accepted.

(** For the two parameter sets of the library. *)
Theorem C68_both_curves : forall s1 s2 J1 J2 (P1 : @PoseidonParams bn_r) (P2 : @PoseidonParams bls_r),
  (forall a, match s1 a with Some b => b * b = a | None => ~ is_square a end) ->
  (forall a, match s2 a with Some b => b * b = a | None => ~ is_square a end) ->
  jubjub_bn s1 = Ok J1 -> jubjub_bls s2 = Ok J2 ->
  pp_ok P1 -> Forall (fun row => nth 0 row 0 <> 0) (ppm P1) -> (2 <= ppf P1)%nat -> (4 <= ppt P1)%nat ->
  pp_ok P2 -> Forall (fun row => nth 0 row 0 <> 0) (ppm P2) -> (2 <= ppf P2)%nat -> (4 <= ppt P2)%nat ->
  (forall sk m, exists s r A, eddsaposeidon_sign P1 J1 sk m = Ok (s, r) /\ e_mul (jd J1) (jg J1) sk = Ok A /\
    demo [num (nval s); r; ex A; m] (eddsa_gadget s1 P1 J1 (num (nval s)) r (ex A) m) (fun w out => ceval w out = 1)) /\
  (forall sk m, exists s r A, eddsaposeidon_sign P2 J2 sk m = Ok (s, r) /\ e_mul (jd J2) (jg J2) sk = Ok A /\
    demo [num (nval s); r; ex A; m] (eddsa_gadget s2 P2 J2 (num (nval s)) r (ex A) m) (fun w out => ceval w out = 1)).
Proof. exact claim_C68_both_curves. Qed.
Print Assumptions C68_both_curves.

(** What [sign] returns, in terms of the hash functions and multiples of G. *)
Theorem C69_signature : forall (p l : positive) (J : JubJub p l) (P : @PoseidonParams p) (sk : Num l) (m : Num p),
  jubjub_ok J -> full_bytes p = true -> full_bytes l = true -> pp_ok P -> (4 <= ppt P)%nat ->
  let rho := (be_val (blake2s 32 PERSONALIZATION (be_bytes (num_bytes l) (nval sk) ++ be_bytes (num_bytes p) (nval m))) mod Zpos l)%Z in
  let r := ex (emul (jd J) rho (jg J)) in
  exists salt h, from_seed SEED_EDDSA_POSEIDON = Ok salt /\
    poseidon P [r; ex (emul (jd J) (nval sk) (jg J)); m; salt] = Ok h /\
    eddsaposeidon_sign P J sk m = Ok (num (rho + nval h * nval sk), r).
Proof. exact claim_C69_signature. Qed.
Print Assumptions C69_signature.

(** Two accepted signatures with the same r, for the key of [sk], give [sk] away. *)
Theorem C69_nonce_reuse : forall (p l : positive) (J : JubJub p l) (P : @PoseidonParams p) sqrt (sk s s' : Num l) (r m m' h h' salt : Num p),
  jubjub_ok J -> (forall a, match sqrt a with Some b => b * b = a | None => ~ is_square a end) ->
  full_bytes p = true -> full_bytes l = true -> pp_ok P -> (4 <= ppt P)%nat ->
  let a := ex (emul (jd J) (nval sk) (jg J)) in
  from_seed SEED_EDDSA_POSEIDON = Ok salt -> poseidon P [r; a; m; salt] = Ok h -> poseidon P [r; a; m'; salt] = Ok h' ->
  eddsaposeidon_verify P sqrt J s r a m = Ok true -> eddsaposeidon_verify P sqrt J s' r a m' = Ok true ->
  (nval h mod Zpos l <> nval h' mod Zpos l)%Z ->
  ndiv (s - s') (num (nval h) - num (nval h')) = Ok sk.
Proof. exact claim_C69_nonce_reuse. Qed.
Print Assumptions C69_nonce_reuse.

(** Secret keys and subgroup points correspond one to one, by the x coordinate. *)
Theorem C69_key : forall (p l : positive) (J : JubJub p l), jubjub_ok J ->
  (forall sk sk' : Num l, ex (emul (jd J) (nval sk) (jg J)) = ex (emul (jd J) (nval sk') (jg J)) -> sk = sk') /\
  (forall A, on_curve (jd J) A -> emul (jd J) (Zpos l) A = mkE 0 1 -> exists sk : Num l, A = emul (jd J) (nval sk) (jg J)).
Proof. exact claim_C69_key. Qed.
Print Assumptions C69_key.

(** In a small field there are collisions: two proofs with the same path and root. *)
Example C66_proof_binding_case :  hval (poseidon_merkle_proof_root P37 (num 22) [num 9] [false]) = 4%Z /\ hval (poseidon_merkle_proof_root P37 (num 2) [num 29] [false]) = 4%Z /\
  hval (poseidon_merkle_tree_root P37 [num 22; num 9]) = 4%Z /\ hval (poseidon_merkle_tree_root P37 [num 2; num 29]) = 4%Z.
Proof. exact case_C66_proof_binding. Qed.

(** Leaf 2 of three. *)
Example C66_membership_case : (3 <= 2 ^ 2 < 2 * 3)%nat /\
  poseidon_merkle_proof_root P37 (num 5) [num 0; num 4] (map (Nat.testbit 2) (seq 0 2)) = poseidon_merkle_tree_root P37 [num 22; num 9; num 5] /\
  hval (poseidon_merkle_proof_root P37 (num 6) [num 0; num 4] (map (Nat.testbit 2) (seq 0 2))) <> hval (poseidon_merkle_tree_root P37 [num 22; num 9; num 5]).
Proof. exact case_C66_membership. Qed.

(** A signature with a non-zero key. *)
Example C67_message_case : exists (J : JubJub bn_r bn_l) s r a, jubjub_ok J /\ a <> 0 /\
  eddsaposeidon_verify pp4 sqrt_search J s r a (num 1) = Ok true.
Proof. exact case_C67_message. Qed.

(** The key 0 on the bn256 curve: 5 G signs every message. *)
Example C67_zero_key_case : exists J : JubJub bn_r bn_l, jubjub_ok J /\ forall m,
  eddsaposeidon_verify pp4 sqrt_search J (num 5) (ex (emul (jd J) 5 (jg J))) 0 m = Ok true /\
  demo [num 5; ex (emul (jd J) 5 (jg J)); 0; m] (eddsa_gadget sqrt_search pp4 J (num 5) (ex (emul (jd J) 5 (jg J))) 0 m) (fun w out => ceval w out = 1).
Proof. exact case_C67_zero_key. Qed.

Example C68_signed_accepted_case : (8 < Zpos bn_l < Zpos bn_r)%Z /\ (8 < Zpos bls_l < Zpos bls_r)%Z /\
  pp_ok (@pp4 bn_r) /\ Forall (fun row => nth 0 row 0 <> 0) (ppm (@pp4 bn_r)) /\ (2 <= ppf (@pp4 bn_r))%nat /\ (4 <= ppt (@pp4 bn_r))%nat.
Proof. exact case_C68_signed_accepted. Qed.

(** The key 1 on the bn256 curve, with the nonce 1 for the messages 1 and 2. *)
Example C69_nonce_reuse_case : exists (J : JubJub bn_r bn_l) (s s' : Num bn_l) (h h' salt : Num bn_r), jubjub_ok J /\
  let a := num bn_gx in ex (emul (jd J) (nval (num 1 : Num bn_l)) (jg J)) = a /\
  from_seed SEED_EDDSA_POSEIDON = Ok salt /\ poseidon pp4 [a; a; num 1; salt] = Ok h /\ poseidon pp4 [a; a; num 2; salt] = Ok h' /\
  eddsaposeidon_verify pp4 sqrt_search J s a a (num 1) = Ok true /\ eddsaposeidon_verify pp4 sqrt_search J s' a a (num 2) = Ok true /\
  (nval h mod Zpos bn_l <> nval h' mod Zpos bn_l)%Z.
Proof. exact case_C69_nonce_reuse. Qed.

(** Both curves satisfy the hypotheses of the other two claims. *)
Example C69_signature_case : exists (J : JubJub bn_r bn_l) (J' : JubJub bls_r bls_l), jubjub_ok J /\ jubjub_ok J' /\
  full_bytes bn_r && full_bytes bn_l && full_bytes bls_r && full_bytes bls_l = true /\
  pp_ok (@pp4 bn_r) /\ pp_ok (@pp4 bls_r) /\ (4 <= ppt (@pp4 bn_r))%nat.
Proof. exact case_C69_signature. Qed.
