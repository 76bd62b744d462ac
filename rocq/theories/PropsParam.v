(** Generated from ParamClaims.v by tools/genprops.py. *)
From Verif Require Import ParamClaims.
Open Scope num_scope.

(** Every signature verifies, and is the only one with its r. *)
Theorem C35_library : forall (sqrt : Num bn_r -> option (Num bn_r)), (forall a, match sqrt a with Some b => b * b = a | None => ~ is_square a end) ->
  exists J P, jubjub_bn sqrt = Ok J /\ pp_new 64 true 4 8 54 = Ok (Some P) /\
  forall (sk : Num bn_l) (m : Num bn_r), exists s r A, eddsaposeidon_sign P J sk m = Ok (s, r) /\ e_mul (jd J) (jg J) sk = Ok A /\
    forall s', eddsaposeidon_verify P sqrt J s' r (ex A) m = Ok true <-> s' = s.
Proof. exact claim_C35_library. Qed.
Print Assumptions C35_library.

(** The circuit's verdict is the native one, for every satisfying assignment. *)
Theorem C44_library : forall (sqrt : Num bn_r -> option (Num bn_r)), (forall a, match sqrt a with Some b => b * b = a | None => ~ is_square a end) ->
  exists J P, jubjub_bn sqrt = Ok J /\ pp_new 64 true 4 8 54 = Ok (Some P) /\
  forall (U : list Index) (sg r a m : CNum bn_r),
  In I0 U -> Forall (owned U) [sg; r; a; m] -> Forall (fun c => as_const c = None) [sg; r; a; m] ->
  let dec s c := exists Q, insub J Q /\ ex Q = ceval s c in
  let res s out := (nval (ceval s sg) < 2 ^ 251)%Z /\ dec s a /\ dec s r /\
    exists b, eddsaposeidon_verify P sqrt J (num (nval (ceval s sg)) : Num bn_l) (ceval s r) (ceval s a) (ceval s m) = Ok b /\
              ceval s out = nbool b in
  let g := c_eddsaposeidon_verify sqrt P J sg r a m in
  sound_for U g res /\
  complete_for U g (fun s => Forall (valued s) [sg; r; a; m] /\ (nval (ceval s sg) < 2 ^ 251)%Z /\ dec s a /\ dec s r)
    (fun s out => Forall (valued s) [out] /\ res s out) /\
  (Forall blank [sg; r; a; m] -> synth_for U g (fun _ _ out => Forall blank [out] /\ True)).
Proof. exact claim_C44_library. Qed.
Print Assumptions C44_library.

(** Fixed-base multiplication of the generators: every window is regular, so the
    count of C61_ecmul_const_count is exact for up to 255 bits. *)
Theorem C61_generators : forall s1 s2, (forall a, match s1 a with Some b => b * b = a | None => ~ is_square a end) ->
  (forall a, match s2 a with Some b => b * b = a | None => ~ is_square a end) ->
  exists J1 J2, jubjub_bn s1 = Ok J1 /\ jubjub_bls s2 = Ok J2 /\
  let count {p l} (J : JubJub p l) := forall (U : list Index) (P : CPoint p) (bits : list (CBool p)) (ids : list Index),
    In I0 U -> Forall (owned U) bits -> Forall2 (fun b i => clc b = [(i, 1)]) bits ids -> NoDup ids -> ~ In I0 ids ->
    (2 <= length bits <= 255)%nat -> Forall blank bits -> cp_as_const P = Some (ex (jg J), ey (jg J)) ->
    synth_for U (ce_mul J P bits) (fun _ n _ =>
      (n + wshort (padding (length bits)) = 6 * ((length bits + 2) / 3) + 5)%nat /\ (length bits = 254%nat -> n = 513%nat)) in
  count J1 /\ count J2.
Proof. exact claim_C61_generators. Qed.
Print Assumptions C61_generators.

(** The signature verifier: 3866 constraints. *)
Theorem C61_library : forall (sqrt : Num bn_r -> option (Num bn_r)), (forall a, match sqrt a with Some b => b * b = a | None => ~ is_square a end) ->
  exists J P, jubjub_bn sqrt = Ok J /\ pp_new 64 true 4 8 54 = Ok (Some P) /\
  forall (U : list Index) (sg r a m : CNum bn_r),
  In I0 U -> Forall (owned U) [sg; r; a; m] -> Forall (fun c => as_const c = None) [sg; r; a; m] -> Forall blank [sg; r; a; m] ->
  synth_for U (c_eddsaposeidon_verify sqrt P J sg r a m) (fun _ n _ => Z.of_nat n = 3866%Z).
Proof. exact claim_C61_library. Qed.
Print Assumptions C61_library.

(** Roots bind leaves and proofs bind their leaf, or there are two pairs with the same hash. *)
Theorem C66_library : exists P : @PoseidonParams bn_r, pp_new 64 true 3 8 53 = Ok (Some P) /\
  (forall (leaf leaf' : list (Num bn_r)) root, length leaf = length leaf' ->
     poseidon_merkle_tree_root P leaf = Ok root -> poseidon_merkle_tree_root P leaf' = Ok root -> leaf = leaf' \/ collision P) /\
  (forall (leaf sib : list (Num bn_r)) (v root : Num bn_r) (i : nat),
     poseidon_merkle_tree_root P leaf = Ok root -> (length leaf <= 2 ^ length sib < 2 * length leaf)%nat -> (i < 2 ^ length sib)%nat ->
     poseidon_merkle_proof_root P v sib (map (Nat.testbit i) (seq 0 (length sib))) = Ok root -> v = nth i leaf 0 \/ collision P).
Proof. exact claim_C66_library. Qed.
Print Assumptions C66_library.

(** What the library signs, its circuit accepts. *)
Theorem C68_library : forall (sqrt : Num bn_r -> option (Num bn_r)), (forall a, match sqrt a with Some b => b * b = a | None => ~ is_square a end) ->
  exists J P, jubjub_bn sqrt = Ok J /\ pp_new 64 true 4 8 54 = Ok (Some P) /\
  forall (sk : Num bn_l) (m : Num bn_r), exists s r A, eddsaposeidon_sign P J sk m = Ok (s, r) /\ e_mul (jd J) (jg J) sk = Ok A /\
    let s' := num (nval s) : Num bn_r in nval s' = nval s /\
    demo [s'; r; ex A; m] (eddsa_gadget sqrt P J s' r (ex A) m) (fun w out => ceval w out = 1).
Proof. exact claim_C68_library. Qed.
Print Assumptions C68_library.

(** Case: the square root of these theorems exists. *)
Example C35_library_case : exists s1 s2, (forall a : Num bn_r, match s1 a with Some b => b * b = a | None => ~ is_square a end) /\
  (forall a : Num bls_r, match s2 a with Some b => b * b = a | None => ~ is_square a end).
Proof. exact case_C35_library. Qed.

Example C44_library_case : exists (U : list Index) (sg r a m : CNum bn_r),
  In I0 U /\ Forall (owned U) [sg; r; a; m] /\ Forall (fun c => as_const c = None) [sg; r; a; m] /\ Forall blank [sg; r; a; m].
Proof. exact case_C44_library. Qed.

Example C61_generators_case : exists (U : list Index) (bits : list (CBool bn_r)) (ids : list Index), In I0 U /\ Forall (owned U) bits /\
  Forall2 (fun b i => clc b = [(i, 1)]) bits ids /\ NoDup ids /\ ~ In I0 ids /\ length bits = 255%nat /\ Forall blank bits.
Proof. exact case_C61_generators. Qed.
