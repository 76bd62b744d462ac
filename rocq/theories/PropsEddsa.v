(** Generated from EddsaClaims.v by tools/genprops.py. *)
From Verif Require Import EddsaClaims.
Open Scope num_scope.

Theorem C35_sign_verify : forall (p l : positive) (J : JubJub p l) (P : @PoseidonParams p) sqrt (sk : Num l) (m : Num p),
  jubjub_ok J -> (forall a, match sqrt a with Some b => b * b = a | None => ~ is_square a end) ->
  full_bytes p = true -> full_bytes l = true -> pp_ok P -> (4 <= ppt P)%nat ->
  exists s r A, eddsaposeidon_sign P J sk m = Ok (s, r) /\ e_mul (jd J) (jg J) sk = Ok A /\
    eddsaposeidon_verify P sqrt J s r (ex A) m = Ok true.
Proof. exact claim_C35_sign_verify. Qed.
Print Assumptions C35_sign_verify.

(** The same for every nonce [rho] and every total hash function of (r, a, m). *)
Theorem C35_any_hash : forall (p l : positive) (J : JubJub p l) (hash : Num p -> Num p -> Num p -> Num p) sqrt (rho sk : Num l) (m : Num p),
  jubjub_ok J -> (forall a, match sqrt a with Some b => b * b = a | None => ~ is_square a end) ->
  full_bytes p = true -> full_bytes l = true ->
  let h := fun r a m => Ok (hash r a m) in
  exists s r A, sign_with h J rho sk m = Ok (s, r) /\ e_mul (jd J) (jg J) sk = Ok A /\
    verify_with h sqrt J s r (ex A) m = Ok true.
Proof. exact claim_C35_any_hash. Qed.
Print Assumptions C35_any_hash.

(** For the two parameter sets of the library. *)
Theorem C35_both_curves : forall s1 s2 J1 J2 P1 P2,
  (forall a, match s1 a with Some b => b * b = a | None => ~ is_square a end) ->
  (forall a, match s2 a with Some b => b * b = a | None => ~ is_square a end) ->
  jubjub_bn s1 = Ok J1 -> jubjub_bls s2 = Ok J2 -> pp_ok P1 -> (4 <= ppt P1)%nat -> pp_ok P2 -> (4 <= ppt P2)%nat ->
  (forall sk m, exists s r A, eddsaposeidon_sign P1 J1 sk m = Ok (s, r) /\ e_mul (jd J1) (jg J1) sk = Ok A /\
    eddsaposeidon_verify P1 s1 J1 s r (ex A) m = Ok true) /\
  (forall sk m, exists s r A, eddsaposeidon_sign P2 J2 sk m = Ok (s, r) /\ e_mul (jd J2) (jg J2) sk = Ok A /\
    eddsaposeidon_verify P2 s2 J2 s r (ex A) m = Ok true).
Proof. exact claim_C35_both_curves. Qed.
Print Assumptions C35_both_curves.

Theorem C36_verify_equation : forall (p l : positive) (J : JubJub p l) (P : @PoseidonParams p) sqrt (s : Num l) (r a m : Num p),
  jubjub_ok J -> (forall a, match sqrt a with Some b => b * b = a | None => ~ is_square a end) ->
  full_bytes p = true -> full_bytes l = true -> pp_ok P -> (4 <= ppt P)%nat ->
  exists salt h b, from_seed SEED_EDDSA_POSEIDON = Ok salt /\ poseidon P [r; a; m; salt] = Ok h /\
    eddsaposeidon_verify P sqrt J s r a m = Ok b /\
    (b = true <-> exists A R,
       on_curve (jd J) A /\ ex A = a /\ emul (jd J) (Zpos l) A = mkE 0 1 /\
       on_curve (jd J) R /\ ex R = r /\ emul (jd J) (Zpos l) R = mkE 0 1 /\
       emul (jd J) (nval s) (jg J) = eadd (jd J) (emul (jd J) (nval h) A) R).
Proof. exact claim_C36_verify_equation. Qed.
Print Assumptions C36_verify_equation.

(** With the hash as an argument: exact for every hash that does not panic, and
    a false verdict without calling it when a point does not decompress. *)
Theorem C36_any_hash : forall (p l : positive) (J : JubJub p l) hash sqrt (s : Num l) (r a m h : Num p),
  jubjub_ok J -> (forall a, match sqrt a with Some b => b * b = a | None => ~ is_square a end) ->
  full_bytes p = true -> full_bytes l = true -> hash r a m = Ok h ->
  exists b, verify_with hash sqrt J s r a m = Ok b /\
    (b = true <-> exists A R,
       on_curve (jd J) A /\ ex A = a /\ emul (jd J) (Zpos l) A = mkE 0 1 /\
       on_curve (jd J) R /\ ex R = r /\ emul (jd J) (Zpos l) R = mkE 0 1 /\
       emul (jd J) (nval s) (jg J) = eadd (jd J) (emul (jd J) (nval h) A) R).
Proof. exact claim_C36_any_hash. Qed.
Print Assumptions C36_any_hash.

(** For given r, a, m at most one scalar is accepted. *)
Theorem C36_unique_scalar : forall (p l : positive) (J : JubJub p l) (P : @PoseidonParams p) sqrt (s s' : Num l) (r a m : Num p),
  jubjub_ok J -> (forall a, match sqrt a with Some b => b * b = a | None => ~ is_square a end) ->
  full_bytes p = true -> full_bytes l = true -> pp_ok P -> (4 <= ppt P)%nat ->
  eddsaposeidon_verify P sqrt J s r a m = Ok true -> eddsaposeidon_verify P sqrt J s' r a m = Ok true -> s = s'.
Proof. exact claim_C36_unique_scalar. Qed.
Print Assumptions C36_unique_scalar.

Example C35_sign_verify_case : exists J : JubJub bn_r bn_l, exists sqrt, jubjub_ok J /\
  (forall a : Num bn_r, match sqrt a with Some b => b * b = a | None => ~ is_square a end) /\
  full_bytes bn_r = true /\ full_bytes bn_l = true /\ pp_ok (@pp4 bn_r) /\ (4 <= ppt (@pp4 bn_r))%nat.
Proof. exact case_C35_sign_verify. Qed.

(** A signature by key 2 on 1; every other scalar is rejected. *)
Example C36_verify_equation_case : exists (J : JubJub bn_r bn_l) sqrt s r a, jubjub_ok J /\
  (forall a : Num bn_r, match sqrt a with Some b => b * b = a | None => ~ is_square a end) /\
  eddsaposeidon_verify pp4 sqrt J s r a (num 1) = Ok true /\
  (forall s', s' <> s -> eddsaposeidon_verify pp4 sqrt J s' r a (num 1) = Ok false).
Proof. exact case_C36_verify_equation. Qed.
