(** Generated from PermClaims.v by tools/genprops.py. *)
From Verif Require Import PermClaims.
Open Scope num_scope.

(** The hash of up to [t] numbers is the first element of the permutation of the
    numbers extended by zeros. *)
Theorem C65_permutation : forall (p : positive), Prime p ->
 forall (P : PoseidonParams p) (ins : list (Num p)), pp_ok P -> (0 < length ins <= ppt P)%nat ->
  let st := ins ++ repeat 0 (ppt P - length ins) in
  poseidon P ins = Ok (hd 0 (permutation P st)) /\ length (permutation P st) = ppt P.
Proof. exact claim_C65_permutation. Qed.
Print Assumptions C65_permutation.

(** It is a bijection of the states if the matrix is invertible and the fifth
    power is a bijection of the field. *)
Theorem C65_bijective : forall (p : positive), Prime p ->
 forall (P : PoseidonParams p) (m' : list (list (Num p))), pp_ok P ->
  ((Zpos p - 1) mod 5 <> 0)%Z -> length m' = ppt P ->
  (forall st, length st = ppt P -> mvec m' (mvec (ppm P) st) = st /\ mvec (ppm P) (mvec m' st) = st) ->
  bijective (ppt P) (permutation P).
Proof. exact claim_C65_bijective. Qed.
Print Assumptions C65_bijective.

(** The fields of both parameter sets meet the condition on the fifth power. *)
Theorem C65_sbox : (forall x y : Num bn_r, sigma x = sigma y -> x = y) /\ (forall x y : Num bls_r, sigma x = sigma y -> x = y) /\
  (forall y : Num bn_r, exists x, sigma x = y) /\ (forall y : Num bls_r, exists x, sigma x = y).
Proof. exact claim_C65_sbox. Qed.
Print Assumptions C65_sbox.

Example C65_permutation_case : pp_ok PU /\ hval (poseidon PU [num 22; num 9]) = nval (hd 0 (permutation PU [num 22; num 9; num 0])) /\
  map nval (permutation PU [num 22; num 9; num 0]) = [32; 7; 16]%Z.
Proof. exact case_C65_permutation. Qed.

Example C65_bijective_case : (36 mod 5 <> 0)%Z /\ bijective 3 (permutation PU).
Proof. exact case_C65_bijective. Qed.

(** The fifth powers of 2 and 3. *)
Example C65_sbox_case : nval (sigma (num 2 : Num bn_r)) = 32%Z /\ nval (sigma (num 3 : Num bls_r)) = 243%Z.
Proof. exact case_C65_sbox. Qed.
