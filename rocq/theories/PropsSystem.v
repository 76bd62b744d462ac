(** Generated from SystemClaims.v by tools/genprops.py. *)
From Verif Require Import SystemClaims.
Open Scope num_scope.

(** Every assignment satisfying the system the keys are made for is a run of the native
    library: its public inputs are the numbers [x] of the public value, [y] are the
    numbers of some secret value, and every call means what the native function says. *)
Theorem C81_sound : forall (p l : positive) (sqrt : Num p -> option (Num p)) (PP : @PoseidonParams p) (J : JubJub p l) ops tp ts K u s, params_ok sqrt PP J ->
  (forall a, ~ In (oInputize a) ops) ->
  key_system (co_synthesize tp ts (lib_main sqrt PP J ops tp ts) None None) = Ok (K, u) ->
  s I0 = 1 -> sys_sat s (k_cons K) ->
  exists x y Rs, length x = tsize tp /\ length y = tsize ts /\ Forall (fun c => as_const c = None) (x ++ y) /\
    map (ceval s) x = map (fun i => s (Input i)) (seq 1 (tsize tp)) /\ k_inputs K = (1 + tsize tp)%nat /\
    meets_after sqrt PP J s (x ++ y) ops Rs.
Proof. exact claim_C81_sound. Qed.
Print Assumptions C81_sound.

(** On values that every native call accepts the prover runs, its public inputs are the
    numbers of the public value and its assignment satisfies its system. *)
Theorem C81_complete : forall (p l : positive) (sqrt : Num p -> option (Num p)) (PP : @PoseidonParams p) (J : JubJub p l) ops tp ts v w, params_ok sqrt PP J ->
  (forall a, ~ In (oInputize a) ops) -> Forall no_alloc ops -> vsized tp v -> vsized ts w ->
  natively sqrt PP J ops (vleaves tp v) (vleaves ts w) ->
  exists P u, prove_system (co_synthesize tp ts (lib_main sqrt PP J ops tp ts) (Some v) (Some w)) = Ok (P, u) /\
    p_inputs P = 1 :: vleaves tp v /\ asm_sat P.
Proof. exact claim_C81_complete. Qed.
Print Assumptions C81_complete.

(** The commands: on values that every native call accepts, setup, test data, prove and
    verify end in true, if the back end is complete. *)
Theorem C81_session : forall (E : Engine) p l sqrt PP (J : JubJub p l) (B : Bellman E p) (Fm : Format (eG1 E) (eG2 E) p) ops tp ts
    obj_print obj_parse ok_vk ok_pf ok_in params_first o_params o_vk o_object o_proof o_inputs r r' d v w,
  let main := lib_main sqrt PP J ops tp ts in
  params_ok sqrt PP J -> bellman_complete B -> (forall x, b_read B (b_write B x) = Some x) -> (forall x, obj_parse (obj_print x) = Some x) ->
  format_ok Fm ok_vk ok_pf ok_in -> Forall limits ops -> (forall a, ~ In (oInputize a) ops) -> Forall no_alloc ops ->
  o_params <> o_vk -> o_params <> o_object -> o_vk <> o_object -> o_vk <> o_proof -> o_vk <> o_inputs -> o_proof <> o_inputs ->
  vsized tp v -> vsized ts w -> natively sqrt PP J ops (vleaves tp v) (vleaves ts w) ->
  exists K P u u', key_system (co_synthesize tp ts main None None) = Ok (K, u) /\ prove_system (co_synthesize tp ts main (Some v) (Some w)) = Ok (P, u') /\
  forall params pf, b_generate B K r = Some params -> b_prove B P params r' = Some pf ->
  ok_vk (truncate_verifying_key (b_vk B params)) -> ok_pf pf -> ok_in (vleaves tp v) ->
  exists d1 d3, cli_setup B Fm tp ts main params_first o_params o_vk r d = Ok d1 /\
    cli_prove B Fm tp ts main obj_parse o_params o_object o_proof o_inputs r' (cli_generate_test_data tp ts obj_print (v, w) o_object d1) = Ok d3 /\
    cli_verify (E := E) Fm o_vk o_proof o_inputs d3 = Ok true.
Proof. exact claim_C81_session. Qed.
Print Assumptions C81_session.

(** What a [true] of cli_verify says: take the verifying key file that setup wrote, and any
    proof and inputs files. If the accepted proof is one from which an assignment satisfying
    the system with those public inputs can be had (the knowledge assumption on the
    pairing-based scheme, for this proof), the native statement holds of the inputs in the file. *)
Theorem C81_verified : forall (E : Engine) p l sqrt PP (J : JubJub p l) (B : Bellman E p) (Fm : Format (eG1 E) (eG2 E) p) ops tp ts
    ok_vk ok_pf ok_in params_first o_params o_vk o_proof o_inputs r d d1 d2,
  let main := lib_main sqrt PP J ops tp ts in
  params_ok sqrt PP J -> format_ok Fm ok_vk ok_pf ok_in -> (forall a, ~ In (oInputize a) ops) -> o_params <> o_vk ->
  cli_setup B Fm tp ts main params_first o_params o_vk r d = Ok d1 -> d2 o_vk = d1 o_vk ->
  cli_verify (E := E) Fm o_vk o_proof o_inputs d2 = Ok true ->
  exists K u params, key_system (co_synthesize tp ts main None None) = Ok (K, u) /\ b_generate B K r = Some params /\
  (ok_vk (truncate_verifying_key (b_vk B params)) ->
  exists pb ib pf ins, d2 o_proof = Some pb /\ f_proof_read Fm pb = Ok pf /\ d2 o_inputs = Some ib /\ f_inputs_read Fm ib = Ok ins /\
    verify E (truncate_verifying_key (b_vk B params)) pf ins = Ok (Some true) /\
    forall s, s I0 = 1 -> map (fun i => s (Input i)) (seq 1 (k_inputs K - 1)) = ins -> sys_sat s (k_cons K) ->
    exists x y Rs, length y = tsize ts /\ Forall (fun c => as_const c = None) (x ++ y) /\ map (ceval s) x = ins /\ length ins = tsize tp /\
      meets_after sqrt PP J s (x ++ y) ops Rs).
Proof. exact claim_C81_verified. Qed.
Print Assumptions C81_verified.

Theorem C81_preimage : forall (p l : positive) (sqrt : Num p -> option (Num p)) (PP : @PoseidonParams p) (J : JubJub p l) h, params_ok sqrt PP J ->
  statement preimage_ops sqrt PP J TNum TNum [h] <-> exists x, poseidon PP [x] = Ok h.
Proof. exact claim_C81_preimage. Qed.
Print Assumptions C81_preimage.

Example C81_preimage_case : exists J P, jubjub_bn sqrt_search = Ok J /\ pp_new 64 true 4 8 54 = Ok (Some P) /\ params_ok sqrt_search P J.
Proof. exact case_C81_preimage. Qed.

Theorem C81_member : forall (p l : positive) (sqrt : Num p -> option (Num p)) (PP : @PoseidonParams p) (J : JubJub p l) n root, params_ok sqrt PP J ->
  statement (member_ops n) sqrt PP J TNum (member_ty n) [root] <->
  exists leaf sib path, length sib = n /\ length path = n /\ poseidon_merkle_proof_root PP leaf sib path = Ok root.
Proof. exact claim_C81_member. Qed.
Print Assumptions C81_member.

Example C81_member_case : exists J P, jubjub_bn sqrt_search = Ok J /\ pp_new 64 true 4 8 54 = Ok (Some P) /\ params_ok sqrt_search P J.
Proof. exact case_C81_member. Qed.

Theorem C81_signed : forall (p l : positive) (sqrt : Num p -> option (Num p)) (PP : @PoseidonParams p) (J : JubJub p l) a m, params_ok sqrt PP J ->
  statement signed_ops sqrt PP J two_nums two_nums [a; m] <-> exists (s : Num l) r, eddsaposeidon_verify PP sqrt J s r a m = Ok true.
Proof. exact claim_C81_signed. Qed.
Print Assumptions C81_signed.

Example C81_signed_case : exists J P, jubjub_bn sqrt_search = Ok J /\ pp_new 64 true 4 8 54 = Ok (Some P) /\ params_ok sqrt_search P J.
Proof. exact case_C81_signed. Qed.

Example C81_session_case : exists J P, jubjub_bn sqrt_search = Ok J /\ pp_new 64 true 4 8 54 = Ok (Some P) /\
  forall x h, poseidon P [x] = Ok h ->
  let main := lib_main sqrt_search P J preimage_ops TNum TNum in let Fm := waves_format (toy_codec 1) (toy_codec 2) bn_r in
  exists d1 d3, cli_setup (E := toyE) (anyB bn_r) Fm TNum TNum main true [1%Z] [2%Z] no_rnd no_files = Ok d1 /\
    cli_prove (E := toyE) (anyB bn_r) Fm TNum TNum main any_parse [1%Z] [3%Z] [4%Z] [5%Z] no_rnd (cli_generate_test_data TNum TNum any_print (h, x) [3%Z] d1) = Ok d3 /\
    cli_verify (E := toyE) Fm [2%Z] [4%Z] [5%Z] d3 = Ok true.
Proof. exact case_C81_session. Qed.

Example C81_complete_case : exists J P h, params_ok sqrt_search P J /\ vsized (p := bn_r) TNum h /\ vsized (p := bn_r) TNum (num 3) /\
  (forall a, ~ In (oInputize (p := bn_r) a) preimage_ops) /\ Forall no_alloc (preimage_ops (p := bn_r)) /\ natively (l := bn_l) sqrt_search P J preimage_ops (vleaves TNum h) (vleaves TNum (num 3)).
Proof. exact case_C81_complete. Qed.

Example C81_sound_case : exists J P K u (s : Index -> Num bn_r), params_ok (l := bn_l) sqrt_search P J /\ (forall a, ~ In (oInputize (p := bn_r) a) preimage_ops) /\
  key_system (co_synthesize TNum TNum (lib_main sqrt_search P J preimage_ops TNum TNum) None None) = Ok (K, u) /\ s I0 = 1 /\ sys_sat s (k_cons K).
Proof. exact case_C81_sound. Qed.

Example C81_verified_case : exists J P d1 d2, params_ok (l := bn_l) sqrt_search P J /\
  let main := lib_main sqrt_search P J preimage_ops TNum TNum in let Fm := waves_format (toy_codec 1) (toy_codec 2) bn_r in
  cli_setup (E := toyE) (anyB bn_r) Fm TNum TNum main true [1%Z] [2%Z] no_rnd no_files = Ok d1 /\ d2 [2%Z] = d1 [2%Z] /\
  cli_verify (E := toyE) Fm [2%Z] [4%Z] [5%Z] d2 = Ok true.
Proof. exact case_C81_verified. Qed.
