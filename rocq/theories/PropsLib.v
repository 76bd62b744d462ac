(** Generated from LibClaims.v by tools/genprops.py. *)
From Verif Require Import LibClaims.
Open Scope num_scope.

(** The parameter sets of the repository: the permutation is a bijection, and the hash is its first element. *)
Theorem C65_library : forall tfq, In tfq [(4, 8, 54); (3, 8, 53); (2, 8, 53)]%nat -> exists P : PoseidonParams bn_r,
  let t := fst (fst tfq) in
  pp_new 64 true t (snd (fst tfq)) (snd tfq) = Ok (Some P) /\ ppt P = t /\ pp_ok P /\ bijective t (permutation P) /\
  forall ins, (0 < length ins <= t)%nat -> poseidon P ins = Ok (hd 0 (permutation P (ins ++ repeat 0 (t - length ins)))).
Proof. exact claim_C65_library. Qed.
Print Assumptions C65_library.
