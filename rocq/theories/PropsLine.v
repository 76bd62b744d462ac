(** Generated from LineClaims.v by tools/genprops.py. *)
From Verif Require Import LineClaims.
Open Scope num_scope.

(** The names without any option *)
Theorem C85_names : forall b,
  let js (s : string) := codes (s ++ match b with Ethereum => ".json" | _ => ".txt" end) in
  reads b (CProve None None None None) = [codes "params.bin"; codes "object.json"] /\
  writes b (CProve None None None None) = [js "proof"%string; js "inputs"%string] /\
  reads b (CVerify None None None) = [js "verification_key"%string; js "proof"%string; js "inputs"%string] /\
  writes b (CSetup None None) = [codes "params.bin"; js "verification_key"%string] /\
  reads b (CGenerateVerifier None None) = [js "verification_key"%string] /\
  writes b (CGenerateVerifier None None) = [codes "verifier.sol"] /\
  writes b (CGenerateTestData None) = [codes "object.json"] /\
  NoDup [codes "params.bin"; codes "object.json"; js "proof"%string; js "inputs"%string; js "verification_key"%string; codes "verifier.sol"].
Proof. exact claim_C85_names. Qed.
Print Assumptions C85_names.

Example C85_names_case : writes Ethereum (CProve None None None (Some [105%Z])) = [[112; 114; 111; 111; 102; 46; 106; 115; 111; 110]; [105]]%Z.
Proof. exact case_C85_names. Qed.

(** A run changes no file but those it writes, and whether it succeeds, what it prints
    and what it writes depend on nothing but the files it reads. Only verify prints. *)
Theorem C85_frame : forall (E : Engine) p (B : Bellman E p) (Fm : Format (eG1 E) (eG2 E) p) A tp ts
    (main : sig p tp -> sig p ts -> prog p A) obj_print obj_parse td SJ chk n b c r,
  let run := cli_main B Fm tp ts main obj_print obj_parse td SJ chk n b c r in
  (forall d d' o, run d = Ok (d', o) -> (forall f, ~ In f (writes b c) -> d' f = d f) /\
     (o <> None <-> exists v f i, c = CVerify v f i)) /\
  (forall d1 d2, (forall f, In f (reads b c) -> d1 f = d2 f) ->
     match run d1, run d2 with
     | Ok (e1, o1), Ok (e2, o2) => o1 = o2 /\ forall f, In f (writes b c) -> e1 f = e2 f
     | Panic, Panic => True
     | _, _ => False
     end).
Proof. exact claim_C85_frame. Qed.
Print Assumptions C85_frame.

(** Several runs *)
Theorem C85_runs : forall (E : Engine) p (B : Bellman E p) (Fm : Format (eG1 E) (eG2 E) p) A tp ts
    (main : sig p tp -> sig p ts -> prog p A) obj_print obj_parse td SJ chk n b cs d d' l,
  cli_session B Fm tp ts main obj_print obj_parse td SJ chk n b cs d = Ok (d', l) ->
  (forall f, (forall c r, In (c, r) cs -> ~ In f (writes b c)) -> d' f = d f) /\
  length l = length (filter (fun cr => match fst cr with CVerify _ _ _ => true | _ => false end) cs).
Proof. exact claim_C85_runs. Qed.
Print Assumptions C85_runs.

(** setup, generate-test-data, prove and verify with the same names each time (given or
    default) print true, if no two of the names are the same. *)
Theorem C85_session : forall (E : Engine) p (B : Bellman E p) (Fm : Format (eG1 E) (eG2 E) p) A tp ts
    (main : sig p tp -> sig p ts -> prog p A) obj_print obj_parse ok_vk ok_pf ok_in SJ chk n b
    a k q f i r r0 r' r1 d v w K P u u' params pf,
  bellman_complete B -> (forall x, b_read B (b_write B x) = Some x) -> (forall x, obj_parse (obj_print x) = Some x) ->
  format_ok Fm ok_vk ok_pf ok_in -> (forall x y, noin (main x y)) ->
  NoDup [opt_params a; opt_vk b k; opt_object q; opt_proof b f; opt_inputs b i] ->
  key_system (co_synthesize tp ts main None None) = Ok (K, u) ->
  prove_system (co_synthesize tp ts main (Some v) (Some w)) = Ok (P, u') ->
  same_asm K P -> asm_sat P -> b_generate B K r = Some params -> b_prove B P params r' = Some pf ->
  ok_vk (truncate_verifying_key (b_vk B params)) -> ok_pf pf -> ok_in (vleaves tp v) ->
  exists d', cli_session B Fm tp ts main obj_print obj_parse (v, w) SJ chk n b
    [(CSetup a k, r); (CGenerateTestData q, r0); (CProve a q f i, r'); (CVerify k f i, r1)] d = Ok (d', [true]).
Proof. exact claim_C85_session. Qed.
Print Assumptions C85_session.

(** In particular without any option. *)
Theorem C85_defaults : forall (E : Engine) p (B : Bellman E p) (Fm : Format (eG1 E) (eG2 E) p) A tp ts
    (main : sig p tp -> sig p ts -> prog p A) obj_print obj_parse ok_vk ok_pf ok_in SJ chk n b
    r r0 r' r1 d v w K P u u' params pf,
  bellman_complete B -> (forall x, b_read B (b_write B x) = Some x) -> (forall x, obj_parse (obj_print x) = Some x) ->
  format_ok Fm ok_vk ok_pf ok_in -> (forall x y, noin (main x y)) ->
  key_system (co_synthesize tp ts main None None) = Ok (K, u) ->
  prove_system (co_synthesize tp ts main (Some v) (Some w)) = Ok (P, u') ->
  same_asm K P -> asm_sat P -> b_generate B K r = Some params -> b_prove B P params r' = Some pf ->
  ok_vk (truncate_verifying_key (b_vk B params)) -> ok_pf pf -> ok_in (vleaves tp v) ->
  exists d', cli_session B Fm tp ts main obj_print obj_parse (v, w) SJ chk n b
    [(CSetup None None, r); (CGenerateTestData None, r0); (CProve None None None None, r'); (CVerify None None None, r1)] d = Ok (d', [true]).
Proof. exact claim_C85_defaults. Qed.
Print Assumptions C85_defaults.

(** One name for two outputs: the second write wins. setup leaves the key in the
    binding for ethereum and the parameters in the others; prove leaves the inputs. *)
Theorem C85_same_file : forall (E : Engine) p (B : Bellman E p) (Fm : Format (eG1 E) (eG2 E) p) A tp ts
    (main : sig p tp -> sig p ts -> prog p A) obj_print obj_parse td SJ chk n b r d d' o (x : path),
  let run c := cli_main B Fm tp ts main obj_print obj_parse td SJ chk n b c r d = Ok (d', o) in
  (run (CSetup (Some x) (Some x)) -> exists params vk, generate_keys B tp ts main r = Ok params /\
     f_vk Fm (truncate_verifying_key (b_vk B params)) = Ok vk /\
     d' x = Some (match b with Ethereum => vk | _ => b_write B params end)) /\
  (forall a q, run (CProve a q (Some x) (Some x)) -> exists ob v w ins, d (opt_object q) = Some ob /\ obj_parse ob = Some (v, w) /\
     f_inputs Fm (vleaves tp v) = Ok ins /\ d' x = Some ins).
Proof. exact claim_C85_same_file. Qed.
Print Assumptions C85_same_file.

(** generate-verifier: in the binding for ethereum it writes the contract for the key in
    the file of keys (as far as the one call of write takes it); the others do not have
    it. *)
Theorem C85_verifier : forall (E : Engine) p (B : Bellman E p) (Fm : Format (eG1 E) (eG2 E) p) A tp ts
    (main : sig p tp -> sig p ts -> prog p A) obj_print obj_parse td SJ chk n r (d : files) k x,
  let run b := cli_main B Fm tp ts main obj_print obj_parse td SJ chk n b (CGenerateVerifier k x) r d in
  (forall vk s sol, json_ok SJ -> f_vk (ethereum_format SJ) vk = Ok s -> d (opt_vk Ethereum k) = Some s -> generate_sol_data chk (vk_data vk) = Ok sol ->
     exists d', run Ethereum = Ok (d', None) /\ d' (opt_solidity x) = Some (firstn n sol) /\ forall f, f <> opt_solidity x -> d' f = d f) /\
  (d (opt_vk Ethereum k) = None -> run Ethereum = Panic) /\
  (forall b, b <> Ethereum -> run b = Panic).
Proof. exact claim_C85_verifier. Qed.
Print Assumptions C85_verifier.

(** verify prints true exactly if the three named files are there, can be decoded and
    the pairing equation accepts. It leaves the directory as it is. *)
Theorem C85_verify : forall (E : Engine) p (B : Bellman E p) (Fm : Format (eG1 E) (eG2 E) p) A tp ts
    (main : sig p tp -> sig p ts -> prog p A) obj_print obj_parse td SJ chk n b r (d : files) k f i,
  let run := cli_main B Fm tp ts main obj_print obj_parse td SJ chk n b (CVerify k f i) r d in
  (run = Ok (d, Some true) <-> exists vb pb ib vk pf l,
     d (opt_vk b k) = Some vb /\ d (opt_proof b f) = Some pb /\ d (opt_inputs b i) = Some ib /\
     f_vk_read Fm vb = Ok vk /\ f_proof_read Fm pb = Ok pf /\ f_inputs_read Fm ib = Ok l /\ verify E vk pf l = Ok (Some true)) /\
  (run = Ok (d, Some true) \/ run = Ok (d, Some false) \/ run = Panic).
Proof. exact claim_C85_verify. Qed.
Print Assumptions C85_verify.

Example C85_frame_case : let d := toy_left (toy_line Waves [CSetup None None]) in
  d (codes "params.bin") <> None /\ d (codes "verification_key.txt") <> None /\ d (codes "verification_key.json") = None.
Proof. exact case_C85_frame. Qed.

(** verify twice says it twice; generate-verifier is known to the binding for ethereum
    only, and fails there on a key that is not JSON. *)
Example C85_runs_case : toy_said (toy_line Near (toy_four ++ [CVerify None None None])) = Some [true; true] /\
  toy_said (toy_line Waves (toy_four ++ [CGenerateVerifier None None])) = None /\
  toy_said (toy_line Ethereum (toy_four ++ [CGenerateVerifier None None])) = None.
Proof. exact case_C85_runs. Qed.

Example C85_session_case : NoDup [opt_params (Some [1%Z]); opt_vk Near None; opt_object None; opt_proof Near (Some [2%Z]); opt_inputs Near None] /\
  toy_said (toy_line Near [CSetup (Some [1%Z]) None; CGenerateTestData None; CProve (Some [1%Z]) None (Some [2%Z]) None; CVerify None (Some [2%Z]) None]) = Some [true] /\
  toy_said (toy_line Near [CSetup (Some [1%Z]) None; CGenerateTestData None; CProve (Some [1%Z]) None (Some [2%Z]) None; CVerify None None None]) = None.
Proof. exact case_C85_session. Qed.

Example C85_defaults_case : map (fun b => toy_said (toy_line b toy_four)) [Ethereum; Waves; WavesBn256; Near] = repeat (Some [true]) 4.
Proof. exact case_C85_defaults. Qed.

Example C85_same_file_case : let e := toy_left (toy_line Ethereum [CSetup (Some [1%Z]) (Some [1%Z])]) in
  let w := toy_left (toy_line Waves [CSetup (Some [1%Z]) (Some [1%Z])]) in e [1%Z] <> w [1%Z] /\ e [1%Z] <> None /\ w [1%Z] <> None.
Proof. exact case_C85_same_file. Qed.

Example C85_verifier_case : exists s, f_vk (ethereum_format tinyJ) (mkVK gen1 gen2 gen2 gen2 [gen1; gen1]) = Ok s /\
  let d := fs_write (opt_vk Ethereum None) s no_files in
  match cli_main (E := toyE) toyB toyF TNum TNum demo_main toy_print toy_parse (num 9, num 3) tinyJ true 5 Ethereum (CGenerateVerifier None None) no_rnd d with
  | Ok (e, None) => option_map (@length Z) (e (codes "verifier.sol")) = Some 5%nat
  | _ => False
  end.
Proof. exact case_C85_verifier. Qed.

Example C85_verify_case : toy_said (toy_line Waves [CVerify None None None]) = None /\
  toy_said (toy_line Waves (toy_four ++ [CGenerateTestData (Some (codes "verification_key.txt")); CVerify None None None])) = None.
Proof. exact case_C85_verify. Qed.
