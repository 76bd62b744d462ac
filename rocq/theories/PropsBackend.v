(** Generated from BackendClaims.v by tools/genprops.py. *)
From Verif Require Import BackendClaims.
Open Scope num_scope.

(** The systems bellman works on: there is one run of the circuit with bellman's
    numbering, and whichever it is, the key generator has its constraints, and the
    prover has its constraints and its values and panics if one is missing. *)
Theorem C62_groth16 : forall p A (m : prog p A),
  (exists tr o, exec [I0] m tr o /\ numbered tr) /\
  forall tr o, exec [I0] m tr o -> numbered tr ->
   (forall K a, key_system m = Ok (K, a) <->
      o = Some a /\ K = mkK (1 + length (inputs tr)) (length (auxs tr)) (constraints tr)) /\
   (forall P a, prove_system m = Ok (P, a) <->
      o = Some a /\ exists iv av, map snd (inputs tr) = map Some iv /\ map snd (auxs tr) = map Some av /\
        P = mkP (1 :: iv) av (constraints tr)) /\
   (In None (map snd (inputs tr)) \/ In None (map snd (auxs tr)) -> prove_system m = Panic).
Proof. exact claim_C62_groth16. Qed.
Print Assumptions C62_groth16.

Example C62_groth16_case :  let m w := circuit sqrt_search toyPP toy2 false w demo_public [] in
  prove_system (m (fun _ => None)) = Panic /\
  exists K P R R', key_system (m (fun _ => None)) = Ok (K, R) /\ prove_system (m demo_prove) = Ok (P, R') /\
    k_inputs K = 4%nat /\ k_aux K = 3%nat /\ p_inputs P = map num [1; 6; 5; 1]%Z /\ p_aux P = map num [1; 6; 6]%Z /\
    nth_error (p_cons P) 1 = Some ([(Input 1, num 1)], [(I0, num 1)], [(Aux 2, num 1)]).
Proof. exact case_C62_groth16. Qed.

Theorem C62_same_system : forall p l sqrt PP (J : JubJub p l) wit wit' ops K R P R',
  key_system (circuit sqrt PP J false wit ops []) = Ok (K, R) ->
  prove_system (circuit sqrt PP J false wit' ops []) = Ok (P, R') ->
  k_inputs K = length (p_inputs P) /\ k_aux K = length (p_aux P) /\ k_cons K = p_cons P.
Proof. exact claim_C62_same_system. Qed.
Print Assumptions C62_same_system.

Example C62_same_system_case : exists K P R R',
  key_system (circuit sqrt_search toyPP toy2 false (fun _ => None) demo_public []) = Ok (K, R) /\
  prove_system (circuit sqrt_search toyPP toy2 false demo_prove demo_public []) = Ok (P, R').
Proof. exact case_C62_same_system. Qed.

(** If proving works, so does key generation. *)
Theorem C62_keys_exist : forall p l sqrt PP (J : JubJub p l) wit ops P R,
  (2 <= num_bits p)%nat -> Forall limits ops ->
  prove_system (circuit sqrt PP J false wit ops []) = Ok (P, R) ->
  exists R', key_system (circuit sqrt PP J false (fun _ => None) ops []) = Ok (mkK (length (p_inputs P)) (length (p_aux P)) (p_cons P), R').
Proof. exact claim_C62_keys_exist. Qed.
Print Assumptions C62_keys_exist.

Example C62_keys_exist_case : (2 <= num_bits 73)%nat /\ Forall limits demo_public /\
  exists P R, prove_system (circuit sqrt_search toyPP toy2 false demo_prove demo_public []) = Ok (P, R).
Proof. exact case_C62_keys_exist. Qed.

(** Any program: TestCS accepts iff it does not panic and the constraints with
    known values hold; num_constraints counts all of them. *)
Theorem C62_testcs : forall p A (m : prog p A),
  (exists tr o, exec [I0] m tr o /\ t_numbered 1 tr) /\
  forall tr o, exec [I0] m tr o -> t_numbered 1 tr ->
    (forall a, (exists T, t_run m testcs_new = Ok (T, a)) <-> o = Some a /\ checked tr) /\
    (forall T a, t_run m testcs_new = Ok (T, a) -> num_constraints T = ncons tr).
Proof. exact claim_C62_testcs. Qed.
Print Assumptions C62_testcs.

(** A false constraint is rejected when its values are known, and not looked at when one is missing. *)
Example C62_testcs_case :  t_run (p := 73) (Enforce cone cone czero (Ret tt)) testcs_new = Panic /\
  (exists T, t_run (p := 73) (Alloc None (fun i => Enforce cone (cvar None i) czero (Ret tt))) testcs_new = Ok (T, tt) /\ num_constraints T = 1%nat).
Proof. exact case_C62_testcs. Qed.

(** A circuit with a witness: TestCS accepts iff the witness satisfies the constraints. *)
Theorem C62_test_accepts : forall p l (Hp : prime (Zpos p)) sqrt PP (J : JubJub p l) (wit : nat -> Num p) ops tr o s R,
  exec [I0] (circuit sqrt PP J false (fun k => Some (wit k)) ops []) tr o -> t_numbered 1 tr -> s I0 = 1 -> honest s tr ->
  ((exists T, t_run (circuit sqrt PP J false (fun k => Some (wit k)) ops []) testcs_new = Ok (T, R)) <-> o = Some R /\ sat s tr).
Proof. exact claim_C62_test_accepts. Qed.
Print Assumptions C62_test_accepts.

Example C62_test_accepts_case : prime 73 /\
  (exists T R, t_run (circuit sqrt_search toyPP toy2 false (fun k => Some (good_wit k)) demo_zero []) testcs_new = Ok (T, R)) /\
  t_run (circuit sqrt_search toyPP toy2 false (fun k => Some (bad_wit k)) demo_zero []) testcs_new = Panic.
Proof. exact case_C62_test_accepts. Qed.
