(** Generated from ContractClaims.v by tools/genprops.py. *)
From Verif Require Import ContractClaims.
Open Scope Z_scope.

(** The contract answers [b] on eight words and a list of inputs exactly when they are in
    range, the words are the data of a proof whose second point is in the subgroup, and the
    library's verifier answers [b] on that proof; in every other case it reverts. *)
Theorem C78_contract : forall (L : Bn256) check, bn_ok L check -> forall vk, key_ok vk ->
  forall (beyond : list Z -> list Z) (p0 p1 p2 p3 p4 p5 p6 p7 : Z) (ins : list Z) (b : bool),
  let p := [p0; p1; p2; p3; p4; p5; p6; p7] in
  Forall (fun w => 0 <= w < 2 ^ 256) p -> Forall (fun w => 0 <= w < 2 ^ 256) ins -> (length ins + 1 = length (vk_ic vk))%nat ->
  (verifyProof check beyond (vk_data vk) p ins = Some b <->
   Forall (fun w => w < Zpos bn_q) p /\ Forall (fun s => s < Zpos bn_ord) ins /\
   exists pf, pf_of_data bn_g1 bn_g2 (mkPD (num p0, num p1) ((num p2, num p3), (num p4, num p5)) (num p6, num p7)) = Ok pf /\
     Pos.iter (wadd (fq2 bn_q) (aff_pt (pf_b pf))) None bn_ord = None /\
     verify (bn_engine L) vk pf (map (@num bn_ord) ins) = Ok (Some b)).
Proof. exact claim_C78_contract. Qed.
Print Assumptions C78_contract.

Theorem C78_proofs : forall (L : Bn256) check, bn_ok L check -> forall vk, key_ok vk ->
  forall (beyond : list Z -> list Z) pf (inputs : list (Num bn_ord)), (length inputs + 1 = length (vk_ic vk))%nat ->
  on1 (aff_pt (pf_a pf)) -> on2 (aff_pt (pf_b pf)) -> on1 (aff_pt (pf_c pf)) ->
  (Pos.iter (wadd (fq2 bn_q) (aff_pt (pf_b pf))) None bn_ord = None -> exists b : bool,
     verify (bn_engine L) vk pf inputs = Ok (Some b) /\ verifyProof check beyond (vk_data vk) (proof_words pf) (map nval inputs) = Some b) /\
  (Pos.iter (wadd (fq2 bn_q) (aff_pt (pf_b pf))) None bn_ord <> None -> verifyProof check beyond (vk_data vk) (proof_words pf) (map nval inputs) = None).
Proof. exact claim_C78_proofs. Qed.
Print Assumptions C78_proofs.

Example C78_contract_case : let check := fun l : list (ecpt (Num bn_q) * ecpt (Fq2 bn_q)) => Nat.eqb (length l) 4 in
  bn_ok (lib_of check) check /\ key_ok some_key /\ Forall (fun w => 0 <= w < 2 ^ 256) [1; 2; 0; 0; 0; 0; 1; 2] /\ Forall (fun w => 0 <= w < 2 ^ 256) [3; 4] /\
  (length [3; 4] + 1 = length (vk_ic some_key))%nat /\
  verifyProof check (fun _ => []) (vk_data some_key) [1; 2; 0; 0; 0; 0; 1; 2] [3; 4] = Some true /\
  verifyProof check (fun _ => []) (vk_data some_key) [1; 3; 0; 0; 0; 0; 1; 2] [3; 4] = None.
Proof. exact case_C78_contract. Qed.

Example C78_proofs_case : key_ok some_key /\ on1 (aff_pt gen1) /\ on2 (aff_pt inf2) /\ proof_words (mkPf gen1 inf2 inf1) = [1; 2; 0; 0; 0; 0; 0; 0].
Proof. exact case_C78_proofs. Qed.

(** On other data that the library accepts the two may differ: a proof with its second point
    outside the subgroup passes the library's verifier and makes the contract revert. *)
Theorem C78_subgroup_refuted : exists (L : Bn256) check vk d pf (inputs : list (Num bn_ord)), bn_ok L check /\ key_ok vk /\
  (length inputs + 1 = length (vk_ic vk))%nat /\ pf_of_data bn_g1 bn_g2 d = Ok pf /\ verify (bn_engine L) vk pf inputs = Ok (Some true) /\
  forall beyond, verifyProof check beyond (vk_data vk) (proof_words pf) (map nval inputs) = None.
Proof. exact claim_C78_subgroup_refuted. Qed.
Print Assumptions C78_subgroup_refuted.
