(** Generated from EndClaims.v by tools/genprops.py. *)
From Verif Require Import EndClaims.
Open Scope num_scope.

(** The session of C75_end_to_end for every list of library calls: if the prover's
    circuit runs and its assignment satisfies the constraints, the commands end in true. *)
Theorem C75_library : forall (E : Engine) p l sqrt PP (J : JubJub p l) (B : Bellman E p) (Fm : Format (eG1 E) (eG2 E) p) ops tp ts
    obj_print obj_parse ok_vk ok_pf ok_in params_first o_params o_vk o_object o_proof o_inputs r r' d v w P u,
  let main := lib_main sqrt PP J ops tp ts in
  bellman_complete B -> (forall x, b_read B (b_write B x) = Some x) -> (forall x, obj_parse (obj_print x) = Some x) ->
  format_ok Fm ok_vk ok_pf ok_in -> (2 <= num_bits p)%nat -> Forall limits ops -> (forall a, ~ In (oInputize a) ops) ->
  o_params <> o_vk -> o_params <> o_object -> o_vk <> o_object -> o_vk <> o_proof -> o_vk <> o_inputs -> o_proof <> o_inputs ->
  prove_system (co_synthesize tp ts main (Some v) (Some w)) = Ok (P, u) -> asm_sat P ->
  exists K u', key_system (co_synthesize tp ts main None None) = Ok (K, u') /\
  forall params pf, b_generate B K r = Some params -> b_prove B P params r' = Some pf ->
  ok_vk (truncate_verifying_key (b_vk B params)) -> ok_pf pf -> ok_in (vleaves tp v) ->
  exists d1 d3, cli_setup B Fm tp ts main params_first o_params o_vk r d = Ok d1 /\
    cli_prove B Fm tp ts main obj_parse o_params o_object o_proof o_inputs r' (cli_generate_test_data tp ts obj_print (v, w) o_object d1) = Ok d3 /\
    cli_verify (E := E) Fm o_vk o_proof o_inputs d3 = Ok true.
Proof. exact claim_C75_library. Qed.
Print Assumptions C75_library.

Example C75_library_case : (2 <= num_bits 251)%nat /\ Forall limits end_ops /\ (forall a, ~ In (oInputize a) end_ops) /\
  (exists P u, prove_system (co_synthesize TNum TNum (lib_main sqrt_search endPP endJ end_ops TNum TNum) (Some (num 105)) (Some (num 3))) = Ok (P, u) /\ asm_sat P) /\
  poseidon endPP [num 3] = Ok (num 105) /\ end_session (num 105) (num 3) = Ok true.
Proof. exact case_C75_library. Qed.
