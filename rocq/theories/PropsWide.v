(** Generated from WideClaims.v by tools/genprops.py. *)
From Verif Require Import WideClaims.
Open Scope num_scope.

(** Any number [h] and any [t - 1] further numbers give, by running the rounds backwards, [t] numbers whose
    hash is [h]; all inputs of full width with hash [h] arise this way. *)
Theorem C82_preimage : forall (p : positive), Prime p ->
 forall (P : PoseidonParams p) (n : list (list (Num p))) (e : N), pp_ok P -> inverts P n e ->
  (forall h rest, S (length rest) = ppt P -> let ins := backwards n e P (h :: rest) in length ins = ppt P /\ poseidon P ins = Ok h) /\
  (forall ins h, length ins = ppt P -> poseidon P ins = Ok h -> exists rest, S (length rest) = ppt P /\ ins = backwards n e P (h :: rest)).
Proof. exact claim_C82_preimage. Qed.
Print Assumptions C82_preimage.

(** So every input of full width (at least 2) has a second one with the same hash, given by [backwards]. *)
Theorem C82_second : forall (p : positive), Prime p ->
 forall (P : PoseidonParams p) (n : list (list (Num p))) (e : N) ins h, pp_ok P -> inverts P n e -> (2 <= ppt P)%nat ->
  length ins = ppt P -> poseidon P ins = Ok h -> exists rest, let ins' := backwards n e P (h :: rest) in
  length ins' = ppt P /\ ins' <> ins /\ poseidon P ins' = Ok h.
Proof. exact claim_C82_second. Qed.
Print Assumptions C82_second.

(** Merkle trees over a state of width 2: every number is the root of a proof of every path. *)
Theorem C82_root : forall (p : positive), Prime p ->
 forall (P : PoseidonParams p) (n : list (list (Num p))) (e : N) (path : list bool) root, pp_ok P -> inverts P n e -> ppt P = 2%nat ->
  exists leaf sibling, length sibling = length path /\ poseidon_merkle_proof_root P leaf sibling path = Ok root.
Proof. exact claim_C82_root. Qed.
Print Assumptions C82_root.

Theorem C82_library : forall tfq, In tfq [(4, 8, 54); (3, 8, 53); (2, 8, 53)]%nat -> exists (P : PoseidonParams bn_r) n e,
  pp_new 64 true (fst (fst tfq)) (snd (fst tfq)) (snd tfq) = Ok (Some P) /\ ppt P = fst (fst tfq) /\ pp_ok P /\ inverts P n e.
Proof. exact claim_C82_library. Qed.
Print Assumptions C82_library.

(** With the repository's parameters of width 4, one preimage of 0 for every choice of three numbers; with those of width 2, a
    membership proof of depth 3 for the root 7. *)
Example C82_preimage_case : exists (P : PoseidonParams bn_r) n e, pp_new 64 true 4 8 54 = Ok (Some P) /\ pp_ok P /\ inverts P n e /\
  forall a b c, let ins := backwards n e P [0; a; b; c] in length ins = 4%nat /\ poseidon P ins = Ok 0.
Proof. exact case_C82_preimage. Qed.

Example C82_second_case : exists (P : PoseidonParams bn_r) n e ins h, pp_ok P /\ inverts P n e /\ (2 <= ppt P)%nat /\ length ins = ppt P /\ poseidon P ins = Ok h.
Proof. exact case_C82_second. Qed.

Example C82_root_case : exists (P : PoseidonParams bn_r) n e leaf sibling, pp_ok P /\ inverts P n e /\ ppt P = 2%nat /\
  length sibling = 3%nat /\ poseidon_merkle_proof_root P leaf sibling [true; false; true] = Ok (num 7).
Proof. exact case_C82_root. Qed.

(** In the parameter sets of the repository, the matrix spreads differences as much as possible: a state that is not zero and its
    product with the matrix have together more than [t] elements that are not zero. *)
Theorem C83_library : forall tfq, In tfq [(4, 8, 54); (3, 8, 53); (2, 8, 53)]%nat -> exists P : PoseidonParams bn_r,
  let t := fst (fst tfq) in
  pp_new 64 true t (snd (fst tfq)) (snd tfq) = Ok (Some P) /\
  forall st, length st = t -> st <> repeat 0 t -> exists st', mix (ppm P) st = Ok st' /\ length st' = t /\ (t < weight st + weight st')%nat.
Proof. exact claim_C83_library. Qed.
Print Assumptions C83_library.

(** A state with one element that is not zero: every element of the product is not zero. *)
Example C83_library_case : exists P : PoseidonParams bn_r, pp_new 64 true 4 8 54 = Ok (Some P) /\
  exists st', mix (ppm P) [num 1; 0; 0; 0] = Ok st' /\ weight st' = 4%nat.
Proof. exact case_C83_library. Qed.
