(** Generated from CmdClaims.v by tools/genprops.py. *)
From Verif Require Import CmdClaims.
Open Scope num_scope.

(** setup, generate_test_data, prove and verify in this order print true. *)
Theorem C75_end_to_end : forall (E : Engine) p (B : Bellman E p) (Fm : Format (eG1 E) (eG2 E) p) A tp ts
    (main : sig p tp -> sig p ts -> prog p A) obj_print obj_parse ok_vk ok_pf ok_in
    params_first o_params o_vk o_object o_proof o_inputs r r' d v w K P u u' params pf,
  bellman_complete B -> (forall x, b_read B (b_write B x) = Some x) -> (forall x, obj_parse (obj_print x) = Some x) ->
  format_ok Fm ok_vk ok_pf ok_in -> (forall x y, noin (main x y)) ->
  o_params <> o_vk -> o_params <> o_object -> o_vk <> o_object -> o_vk <> o_proof -> o_vk <> o_inputs -> o_proof <> o_inputs ->
  key_system (co_synthesize tp ts main None None) = Ok (K, u) ->
  prove_system (co_synthesize tp ts main (Some v) (Some w)) = Ok (P, u') ->
  same_asm K P -> asm_sat P -> b_generate B K r = Some params -> b_prove B P params r' = Some pf ->
  ok_vk (truncate_verifying_key (b_vk B params)) -> ok_pf pf -> ok_in (vleaves tp v) ->
  exists d1 d3, cli_setup B Fm tp ts main params_first o_params o_vk r d = Ok d1 /\
    cli_prove B Fm tp ts main obj_parse o_params o_object o_proof o_inputs r' (cli_generate_test_data tp ts obj_print (v, w) o_object d1) = Ok d3 /\
    cli_verify (E := E) Fm o_vk o_proof o_inputs d3 = Ok true.
Proof. exact claim_C75_end_to_end. Qed.
Print Assumptions C75_end_to_end.

(** verify prints true exactly if the three files are there, can be decoded and the
    pairing equation accepts; it prints false for the wrong number of inputs; and it
    panics if a file is missing or cannot be decoded. *)
Theorem C75_verify : forall (E : Engine) p (Fm : Format (eG1 E) (eG2 E) p) o_vk o_proof o_inputs (d : files),
  (cli_verify (E := E) Fm o_vk o_proof o_inputs d = Ok true <-> exists vb pb ib vk pf l,
     d o_vk = Some vb /\ d o_proof = Some pb /\ d o_inputs = Some ib /\
     f_vk_read Fm vb = Ok vk /\ f_proof_read Fm pb = Ok pf /\ f_inputs_read Fm ib = Ok l /\ verify E vk pf l = Ok (Some true)) /\
  (forall vb pb ib vk pf l, d o_vk = Some vb -> d o_proof = Some pb -> d o_inputs = Some ib ->
     f_vk_read Fm vb = Ok vk -> f_proof_read Fm pb = Ok pf -> f_inputs_read Fm ib = Ok l ->
     (length l + 1 <> length (vk_ic vk))%nat -> cli_verify (E := E) Fm o_vk o_proof o_inputs d = Ok false) /\
  (d o_vk = None \/ d o_proof = None \/ d o_inputs = None \/ (exists vb, d o_vk = Some vb /\ f_vk_read Fm vb = Panic) \/
   (exists pb, d o_proof = Some pb /\ f_proof_read Fm pb = Panic) \/ (exists ib, d o_inputs = Some ib /\ f_inputs_read Fm ib = Panic) ->
   cli_verify (E := E) Fm o_vk o_proof o_inputs d = Panic).
Proof. exact claim_C75_verify. Qed.
Print Assumptions C75_verify.

Theorem C75_waves : forall G1 G2 (k1 : PointCodec G1) (k2 : PointCodec G2) p,
  codec_ok k1 -> codec_ok k2 -> codec_bytes k1 -> codec_bytes k2 ->
  format_ok (waves_format k1 k2 p) (finite_key k1 k2) (finite_proof k1 k2) (fun _ => True).
Proof. exact claim_C75_waves. Qed.
Print Assumptions C75_waves.

(** A proof file may be followed by anything in waves, and by nothing in near. *)
Theorem C75_waves_tail : forall G1 G2 (k1 : PointCodec G1) (k2 : PointCodec G2) p pf tail,
  codec_ok k1 -> codec_ok k2 -> codec_bytes k1 -> codec_bytes k2 -> finite_proof k1 k2 pf -> Forall byte tail ->
  f_proof_read (waves_format k1 k2 p) (b64_encode (bproof_write k1 k2 pf ++ tail)) = Ok pf.
Proof. exact claim_C75_waves_tail. Qed.
Print Assumptions C75_waves_tail.

Theorem C75_near : format_ok near_format
  (fun vk => key_valid vk /\ (Z.of_nat (length (vk_ic vk)) < 2 ^ 32)%Z) proof_valid (fun l => (Z.of_nat (length l) < 2 ^ 32)%Z).
Proof. exact claim_C75_near. Qed.
Print Assumptions C75_near.

Theorem C75_near_tail : forall (pf : Proof_ (Aff (Num bn_q)) (Aff (Fq2 bn_q))) b tail, byte b -> Forall byte tail ->
  f_proof_read near_format (b64_encode (pd_ser (pf_data pf) ++ b :: tail)) = Panic.
Proof. exact claim_C75_near_tail. Qed.
Print Assumptions C75_near_tail.

Theorem C75_ethereum : forall SJ, json_ok SJ -> format_ok (ethereum_format SJ) key_valid proof_valid (fun _ => True).
Proof. exact claim_C75_ethereum. Qed.
Print Assumptions C75_ethereum.

Example C75_end_to_end_case : bellman_complete toyB /\ (forall x, b_read toyB (b_write toyB x) = Some x) /\
  (forall x, toy_parse (toy_print x) = Some x) /\ format_ok toyF (finite_key (toy_codec 1) (toy_codec 2)) (finite_proof (toy_codec 1) (toy_codec 2)) (fun _ => True) /\
  (forall x y, noin (demo_main x y)) /\
  (exists K u P u', key_system (co_synthesize TNum TNum demo_main None None) = Ok (K, u) /\
     prove_system (co_synthesize TNum TNum demo_main (Some (num 9)) (Some (num 3))) = Ok (P, u') /\ same_asm K P /\ asm_sat P) /\
  toy_session false = Ok true /\ toy_session true = Ok false.
Proof. exact case_C75_end_to_end. Qed.

Example C75_verify_case : toy_session false = Ok true /\ toy_session true = Ok false /\
  cli_verify (E := toyE) toyF [2%Z] [4%Z] [5%Z] no_files = Panic.
Proof. exact case_C75_verify. Qed.

Example C75_waves_case : codec_ok (toy_codec 1) /\ codec_bytes (toy_codec 1) /\ finite_proof (toy_codec 1) (toy_codec 2) (mkPf (num 5) 1 (num 4)) /\
  f_proof toyF (mkPf (num 5) 1 (num 4)) = Ok [66; 81; 69; 65; 66; 65; 61; 61]%Z.
Proof. exact case_C75_waves. Qed.

Example C75_waves_tail_case : Forall byte [1; 2]%Z /\ f_proof_read toyF (b64_encode (bproof_write (toy_codec 1) (toy_codec 2) (mkPf (num 5) 1 (num 4)) ++ [1; 2]%Z)) = Ok (mkPf (num 5) 1 (num 4)).
Proof. exact case_C75_waves_tail. Qed.

(** The digest is as long as the field element, "__fawkes" personalizes it. *)
Theorem C49_from_seed : forall (p : positive) (blob : list Z),
  @from_seed p blob = if Nat.eqb (num_bytes p) (8 * num_limbs p)
    then Ok (num (be_val (blake2s (num_bytes p) [95; 95; 102; 97; 119; 107; 101; 115]%Z blob))) else Panic.
Proof. exact claim_C49_from_seed. Qed.
Print Assumptions C49_from_seed.

(** An 8-byte and a 32-byte digest of "abc", with the values other implementations give *)
Example C49_from_seed_case : rmap nval (@from_seed (2 ^ 61 - 1) [97; 98; 99]%Z) = Ok 655715749085548242%Z /\
  rmap nval (@from_seed bn_r [97; 98; 99]%Z) = Ok 18262790625817975163487969469134132614022678293913369393137336089004264894546%Z.
Proof. exact case_C49_from_seed. Qed.

Example C75_near_case : proof_valid (mkPf gen1 gen2 gen1) /\ key_valid (mkVK gen1 gen2 gen2 gen2 [gen1; gen1]) /\
  (Z.of_nat (length [gen1; gen1]) < 2 ^ 32)%Z /\ rmap (@length Z) (f_proof near_format (mkPf gen1 gen2 gen1)) = Ok 344%nat.
Proof. exact case_C75_near. Qed.

Example C75_near_tail_case : byte 0%Z /\ f_proof_read near_format (b64_encode (pd_ser (pf_data (mkPf gen1 gen2 gen1)) ++ [0%Z])) = Panic.
Proof. exact case_C75_near_tail. Qed.

Example C75_ethereum_case : json_ok tinyJ /\ proof_valid (mkPf gen1 gen2 gen1) /\ key_valid (mkVK gen1 gen2 gen2 gen2 [gen1; gen1]) /\
  f_inputs (ethereum_format tinyJ) [num 5; num 12] = Ok [91; 34; 53; 34; 44; 34; 49; 50; 34; 93]%Z.
Proof. exact case_C75_ethereum. Qed.

(** generate_verifier writes the contract for the key that setup wrote, as far as the
    one call of write takes it: the file is complete exactly if all bytes are taken. *)
Theorem C75_generate_verifier : forall SJ chk n o_vk o_sol (d : files) vk s sol, json_ok SJ ->
  f_vk (ethereum_format SJ) vk = Ok s -> d o_vk = Some s -> generate_sol_data chk (vk_data vk) = Ok sol ->
  exists d', cli_generate_verifier SJ chk n o_vk o_sol d = Ok d' /\ d' o_sol = Some (firstn n sol) /\
    (d' o_sol = Some sol <-> (length sol <= n)%nat) /\ forall f, f <> o_sol -> d' f = d f.
Proof. exact claim_C75_generate_verifier. Qed.
Print Assumptions C75_generate_verifier.

Example C75_generate_verifier_case : json_ok tinyJ /\
  (exists s, f_vk (ethereum_format tinyJ) (mkVK gen1 gen2 gen2 gen2 [gen1; gen1]) = Ok s /\ (length s > 100)%nat) /\
  (exists sol, generate_sol_data true (vk_data (mkVK gen1 gen2 gen2 gen2 [gen1; gen1])) = Ok sol /\ (length sol > 100)%nat).
Proof. exact case_C75_generate_verifier. Qed.
