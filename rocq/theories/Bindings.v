(** The command line bindings: the macros groth16_ethereum_bindings,
    groth16_waves_bindings, groth16_waves_bindings_bn256 and groth16_near_bindings
    (src/macros.rs:224-1157), and the serde encodings they use. Model only.

    Simplified: argument parsing is dropped (the paths are arguments; see CmdLine.v), writes to
    files succeed, a file is its bytes, and messages are dropped except the result of
    verify. bellman and serde_json are records of the functions the code calls. That a
    file is UTF-8 (read_to_string) is part of parsing it: base64 takes ASCII only. *)

From Verif Require Export Backends Signal Verifier Solidity OsRng.
Open Scope Z_scope.

(** ** base64 0.12 with the standard alphabet *)
Definition b64_char (n : Z) : Z :=
  if n <? 26 then 65 + n else if n <? 52 then 71 + n else if n <? 62 then n - 4 else if n =? 62 then 43 else 47.
(** base64::encode *)
Fixpoint b64_encode (bs : list Z) : list Z :=
  match bs with
  | [] => []
  | [a] => [b64_char (a / 4); b64_char (a mod 4 * 16); 61; 61]
  | [a; b] => [b64_char (a / 4); b64_char (a mod 4 * 16 + b / 16); b64_char (b mod 16 * 4); 61]
  | a :: b :: c :: bs =>
      b64_char (a / 4) :: b64_char (a mod 4 * 16 + b / 16) :: b64_char (b mod 16 * 4 + c / 64) :: b64_char (c mod 64) :: b64_encode bs
  end.
Definition b64_val (c : Z) : option Z :=
  if (65 <=? c) && (c <=? 90) then Some (c - 65)
  else if (97 <=? c) && (c <=? 122) then Some (c - 71)
  else if (48 <=? c) && (c <=? 57) then Some (c + 4)
  else if c =? 43 then Some 62 else if c =? 47 then Some 63 else None.
(** The symbols as numbers, up to two '=' at the end removed *)
Fixpoint b64_vals (s : list Z) : option (list Z) :=
  match s with
  | [] => Some []
  | c :: s => match b64_val c with None => None | Some v => option_map (cons v) (b64_vals s) end
  end.
(** Groups of four symbols; what is left over is two or three symbols, whose unused
    low bits must be zero *)
Fixpoint b64_groups (vs : list Z) : option (list Z) :=
  match vs with
  | [] => Some []
  | [_] => None
  | [a; b] => if b mod 16 =? 0 then Some [a * 4 + b / 16] else None
  | [a; b; c] => if c mod 4 =? 0 then Some [a * 4 + b / 16; b mod 16 * 16 + c / 4] else None
  | a :: b :: c :: d :: vs =>
      option_map (fun t => a * 4 + b / 16 :: b mod 16 * 16 + c / 4 :: c mod 4 * 64 + d :: t) (b64_groups vs)
  end.
Definition b64_unpad (s : list Z) : list Z * nat :=
  match rev s with
  | 61 :: 61 :: t => (rev t, 2%nat)
  | 61 :: t => (rev t, 1%nat)
  | _ => (s, 0%nat)
  end.
(** base64::decode; [None] is an error. Padding may be left out but not exceed the group. *)
Definition b64_decode (s : list Z) : option (list Z) :=
  let (body, pads) := b64_unpad s in
  if (Nat.leb (Nat.modulo (length body) 4 + pads) 4 && negb (Nat.eqb (Nat.modulo (length body) 4) 0 && Nat.ltb 0 pads))%bool
  then match b64_vals body with None => None | Some vs => b64_groups vs end
  else None.

(** ** Vectors of numbers in the waves bindings *)
Section Vectors.
Context {p : positive}.
Notation F := (Num p).
(** [size_of::<Repr>()] *)
Definition repr_sz : nat := (8 * num_limbs p)%nat.
(** read_num (macros.rs:469-478, 707-716, 947-956) *)
Definition read_num (data : list Z) : option F :=
  match read_be (num_limbs p) data with
  | None => None
  | Some (t, _) => from_repr t
  end.
(** The loop of read_num_vec: [n] more numbers from [offset] on *)
Fixpoint read_offsets (n offset : nat) (data : list Z) : option (list F) :=
  match n with
  | O => Some []
  | S n =>
      match read_num (skipn offset data) with
      | None => None
      | Some x => option_map (cons x) (read_offsets n (offset + repr_sz) data)
      end
  end.
(** read_num_vec (macros.rs:480-493, 718-731, 958-971) *)
Definition read_num_vec (data : list Z) : option (list F) :=
  if Nat.eqb (Nat.modulo (length data) repr_sz) 0
  then read_offsets (Nat.div (length data) repr_sz) 0 data
  else None.
(** Writing [bs] into [&mut data[off..]] *)
Definition write_at (off : nat) (bs data : list Z) : res (list Z) :=
  _ <-? rassert (Nat.leb (off + length bs) (length data)) ;
  Ok (firstn off data ++ bs ++ skipn (off + length bs) data).
Fixpoint write_nums (i : nat) (nums : list F) (data : list Z) : res (list Z) :=
  match nums with
  | [] => Ok data
  | e :: nums => data <-? write_at (repr_sz * i) (write_be (into_repr e)) data ; write_nums (S i) nums data
  end.
(** num_vec_to_buf (macros.rs:495-505, 733-743, 973-983) *)
Definition num_vec_to_buf (nums : list F) : res (list Z) := write_nums 0 nums (repeat 0 (repr_sz * length nums)).
End Vectors.

(** [BorshDeserialize::try_from_slice] (borsh 0.7): nothing may be left over *)
Definition try_from_slice {A} (de : list Z -> option (A * list Z)) (buf : list Z) : option A :=
  match de buf with Some (a, []) => Some a | _ => None end.

(** ** CircuitObject (macros.rs:329-359, 574-604, 812-842, 1052-1082) *)
Section Object.
Context {p : positive} {A : Type} (tp ts : sty) (main : sig p tp -> sig p ts -> prog p A).
Notation F := (Num p).
(** synthesize (macros.rs:336-346, 581-591, 819-829, 1059-1069) *)
Definition co_synthesize (v : option (val p tp)) (w : option (val p ts)) : prog p unit :=
  x <-- s_alloc tp v ;;
  y <-- s_alloc ts w ;;
  main x y ;;;
  s_inputize tp x.
(** [iter().map(get_value).collect::<Option<Vec<_>>>()] *)
Fixpoint collect_options {B} (l : list (option B)) : option (list B) :=
  match l with
  | [] => Some []
  | None :: _ => None
  | Some b :: l => option_map (cons b) (collect_options l)
  end.
(** get_inputs (macros.rs:348-352, 593-597, 831-835, 1071-1075) *)
Definition co_get_inputs (v : option (val p tp)) : res (option (list F)) :=
  r <-? t_run (s_alloc tp v) testcs_new ;
  Ok (collect_options (map cvalue (s_linearize tp (snd r)))).
End Object.

(** ** serde: JSON values, and the derived implementations for the data types *)
Inductive json := JStr (s : list Z) | JArr (l : list json) | JObj (m : list (list Z * json)) | JOther.
(** serde_json::to_string_pretty and from_str on JSON values *)
Record SerdeJson := mkSJ { sj_print : json -> list Z; sj_parse : list Z -> option json }.

Section Json.
Context {q : positive}.
(** Num (native/num.rs:45-68). [None] is a serde error. *)
Definition num_ser (a : Num q) : res json := rmap JStr (num_to_string a).
Definition num_de (j : json) : res (option (Num q)) :=
  match j with JStr s => num_deserialize s | _ => Ok None end.
(** Combining two results that may be errors *)
Definition both {A B} (x : res (option A)) (y : res (option B)) : res (option (A * B)) :=
  a <-? x ;
  match a with
  | None => Ok None
  | Some a => b <-? y ; Ok (option_map (fun b => (a, b)) b)
  end.
(** Pairs and tuple structs of two fields are arrays of length two. *)
Definition pair_ser {A} (ser : A -> res json) (x y : A) : res json := a <-? ser x ; b <-? ser y ; Ok (JArr [a; b]).
Definition pair_de {A} (de : json -> res (option A)) (j : json) : res (option (A * A)) :=
  match j with JArr [a; b] => both (de a) (de b) | _ => Ok None end.
(** G1PointData, G2PointData (helpers/groth16/mod.rs:85-91) *)
Definition g1_json (d : G1Data q) : res json := pair_ser num_ser (fst d) (snd d).
Definition g1_unjson (j : json) : res (option (G1Data q)) := pair_de num_de j.
Definition g2_json (d : G2Data q) : res json := pair_ser (fun xy => pair_ser num_ser (fst xy) (snd xy)) (fst d) (snd d).
Definition g2_unjson (j : json) : res (option (G2Data q)) := pair_de (pair_de num_de) j.
(** [Vec<T>] *)
Definition vec_json {A} (ser : A -> res json) (l : list A) : res json := rmap JArr (rmapM ser l).
Fixpoint vec_unjson_list {A} (de : json -> res (option A)) (l : list json) : res (option (list A)) :=
  match l with
  | [] => Ok (Some [])
  | j :: l => r <-? both (de j) (vec_unjson_list de l) ; Ok (option_map (fun xl => fst xl :: snd xl) r)
  end.
Definition vec_unjson {A} (de : json -> res (option A)) (j : json) : res (option (list A)) :=
  match j with JArr l => vec_unjson_list de l | _ => Ok None end.

(** Derived Deserialize of a struct: from a map every field exactly once, other
    keys ignored; from an array the fields in order. [fields] finds the values. *)
Definition keyb (a b : list Z) : bool := if list_eq_dec Z.eq_dec a b then true else false.
Definition field (m : list (list Z * json)) (k : list Z) : option json :=
  match filter (fun kv => keyb (fst kv) k) m with [kv] => Some (snd kv) | _ => None end.
Definition fields (ks : list (list Z)) (j : json) : option (list json) :=
  match j with
  | JObj m => collect_options (map (field m) ks)
  | JArr l => if Nat.eqb (length l) (length ks) then Some l else None
  | _ => None
  end.
(** Field names as bytes *)
Definition k_a : list Z := [97].
Definition k_b : list Z := [98].
Definition k_c : list Z := [99].
Definition k_alpha_g1 : list Z := [97; 108; 112; 104; 97; 95; 103; 49].
Definition k_beta_g2 : list Z := [98; 101; 116; 97; 95; 103; 50].
Definition k_gamma_g2 : list Z := [103; 97; 109; 109; 97; 95; 103; 50].
Definition k_delta_g2 : list Z := [100; 101; 108; 116; 97; 95; 103; 50].
Definition k_ic : list Z := [105; 99].
(** ProofData (prover.rs:19-25) *)
Definition pd_json (d : ProofData q) : res json :=
  a <-? g1_json (pd_a d) ; b <-? g2_json (pd_b d) ; c <-? g1_json (pd_c d) ;
  Ok (JObj [(k_a, a); (k_b, b); (k_c, c)]).
Definition pd_unjson (j : json) : res (option (ProofData q)) :=
  match fields [k_a; k_b; k_c] j with
  | Some [a; b; c] =>
      r <-? both (g1_unjson a) (both (g2_unjson b) (g1_unjson c)) ;
      Ok (option_map (fun x => mkPD (fst x) (fst (snd x)) (snd (snd x))) r)
  | _ => Ok None
  end.
(** TruncatedVerifyingKeyData (verifier.rs:15-23) *)
Definition vd_json (d : VKData q) : res json :=
  a <-? g1_json (vd_alpha d) ; b <-? g2_json (vd_beta d) ; c <-? g2_json (vd_gamma d) ; e <-? g2_json (vd_delta d) ;
  i <-? vec_json g1_json (vd_ic d) ;
  Ok (JObj [(k_alpha_g1, a); (k_beta_g2, b); (k_gamma_g2, c); (k_delta_g2, e); (k_ic, i)]).
Definition vd_unjson (j : json) : res (option (VKData q)) :=
  match fields [k_alpha_g1; k_beta_g2; k_gamma_g2; k_delta_g2; k_ic] j with
  | Some [a; b; c; e; i] =>
      r <-? both (g1_unjson a) (both (g2_unjson b) (both (g2_unjson c) (both (g2_unjson e) (vec_unjson g1_unjson i)))) ;
      Ok (option_map (fun x => mkVKD (fst x) (fst (snd x)) (fst (snd (snd x))) (fst (snd (snd (snd x)))) (snd (snd (snd (snd x))))) r)
  | _ => Ok None
  end.
End Json.

(** ** bellman's groth16 module, as far as it is called (prover.rs:98-111; params.write and
    Parameters::read in macros.rs:366, 412, 613, 648, 851, 886, 1089, 1128) *)
Definition rnd := nat -> option (list Z).
Record Bellman (E : Engine) (p : positive) := mkBellman {
  b_params : Type;
  b_generate : @keyasm p -> rnd -> option b_params;
  b_prove : @proveasm p -> b_params -> rnd -> option (Proof_ (eG1 E) (eG2 E));
  b_vk : b_params -> BellmanVK (eG1 E) (eG2 E);
  b_write : b_params -> list Z;
  b_read : list Z -> option b_params }.
Arguments mkBellman {E p}. Arguments b_params {E p}. Arguments b_generate {E p}. Arguments b_prove {E p}.
Arguments b_vk {E p}. Arguments b_write {E p}. Arguments b_read {E p}.

(** ** Files *)
Definition path := list Z.
Definition files := path -> option (list Z).
Definition fs_write (f : path) (bs : list Z) (d : files) : files := fun g => if keyb f g then Some bs else d g.
Definition fs_read (f : path) (d : files) : res (list Z) := unwrap (d f).

(** How a binding writes keys, proofs and inputs into files *)
Record Format (G1 G2 : Type) (p : positive) := mkFormat {
  f_vk : VK G1 G2 -> res (list Z); f_vk_read : list Z -> res (VK G1 G2);
  f_proof : Proof_ G1 G2 -> res (list Z); f_proof_read : list Z -> res (Proof_ G1 G2);
  f_inputs : list (Num p) -> res (list Z); f_inputs_read : list Z -> res (list (Num p)) }.
Arguments mkFormat {G1 G2 p}. Arguments f_vk {G1 G2 p}. Arguments f_vk_read {G1 G2 p}. Arguments f_proof {G1 G2 p}.
Arguments f_proof_read {G1 G2 p}. Arguments f_inputs {G1 G2 p}. Arguments f_inputs_read {G1 G2 p}.

(** waves and waves_bn256 (macros.rs:608-612, 623-631, 659-667 and 846-850, 861-869, 897-905):
    compressed points in base64. Proof::write and read (prover.rs:63-81) are bellman's:
    the three points in order, infinity is an error; what follows them is not looked at. *)
Section Waves.
Context {G1 G2 : Type} (k1 : PointCodec G1) (k2 : PointCodec G2) (p : positive).
Definition bproof_write (pf : Proof_ G1 G2) : list Z :=
  pc_compress k1 (pf_a pf) ++ pc_compress k2 (pf_b pf) ++ pc_compress k1 (pf_c pf).
Definition bproof_read (buf : list Z) : option (Proof_ G1 G2) :=
  match read_point k1 buf with None => None | Some (a, buf) =>
  match read_point k2 buf with None => None | Some (b, buf) =>
  match read_point k1 buf with None => None | Some (c, _) => Some (mkPf a b c) end end end.
Definition waves_format : Format G1 G2 p := mkFormat
  (fun vk => Ok (b64_encode (tvk_write k1 k2 vk)))
  (fun s => b <-? unwrap (b64_decode s) ; unwrap (tvk_read k1 k2 b))
  (fun pf => Ok (b64_encode (bproof_write pf)))
  (fun s => b <-? unwrap (b64_decode s) ; unwrap (bproof_read b))
  (fun ins => b <-? num_vec_to_buf ins ; Ok (b64_encode b))
  (fun s => b <-? unwrap (b64_decode s) ; unwrap (read_num_vec b)).
End Waves.

(** near (macros.rs:1086-1088, 1099-1111, 1139-1142): borsh in base64 *)
Definition near_format : Format (Aff (Num bn_q)) (Aff (Fq2 bn_q)) bn_ord := mkFormat
  (fun vk => Ok (b64_encode (vd_ser (vk_data vk))))
  (fun s => b <-? unwrap (b64_decode s) ; d <-? unwrap (try_from_slice vd_de b) ; vk_of_data bn_g1 bn_g2 d)
  (fun pf => Ok (b64_encode (pd_ser (pf_data pf))))
  (fun s => b <-? unwrap (b64_decode s) ; d <-? unwrap (try_from_slice pd_de b) ; pf_of_data bn_g1 bn_g2 d)
  (fun ins => Ok (b64_encode (vec_ser borsh_ser ins)))
  (fun s => b <-? unwrap (b64_decode s) ; unwrap (try_from_slice (vec_de borsh_de) b)).

(** ethereum (macros.rs:363-367, 387-395, 423-427): JSON *)
Definition from_json {A} (SJ : SerdeJson) (de : json -> res (option A)) (s : list Z) : res A :=
  j <-? unwrap (sj_parse SJ s) ; o <-? de j ; unwrap o.
Definition ethereum_format (SJ : SerdeJson) : Format (Aff (Num bn_q)) (Aff (Fq2 bn_q)) bn_ord := mkFormat
  (fun vk => rmap (sj_print SJ) (vd_json (vk_data vk)))
  (fun s => d <-? from_json SJ vd_unjson s ; vk_of_data bn_g1 bn_g2 d)
  (fun pf => rmap (sj_print SJ) (pd_json (pf_data pf)))
  (fun s => d <-? from_json SJ pd_unjson s ; pf_of_data bn_g1 bn_g2 d)
  (fun ins => rmap (sj_print SJ) (vec_json num_ser ins))
  (fun s => from_json SJ (vec_unjson num_de) s).

(** ** The commands *)
Section Commands.
Context {E : Engine} {p : positive} (B : Bellman E p) (Fm : Format (eG1 E) (eG2 E) p).
Context {A : Type} (tp ts : sty) (main : sig p tp -> sig p ts -> prog p A).
(** The object file holds a pair of public and secret values; serde_json on the user's types *)
Context (obj_print : val p tp * val p ts -> list Z) (obj_parse : list Z -> option (val p tp * val p ts)).

(** generate_keys (prover.rs:98-103) *)
Definition generate_keys (r : rnd) : res (b_params B) :=
  k <-? key_system (co_synthesize tp ts main None None) ; unwrap (b_generate B (fst k) r).
(** prove (prover.rs:105-111) *)
Definition prove (v : val p tp) (w : val p ts) (params : b_params B) (r : rnd) : res (Proof_ (eG1 E) (eG2 E)) :=
  k <-? prove_system (co_synthesize tp ts main (Some v) (Some w)) ; unwrap (b_prove B (fst k) params r).

(** cli_setup (macros.rs:361-369 in ethereum; 606-616, 844-854, 1084-1092 in the
    others, where the key is written before the parameters) *)
Definition cli_setup (params_first : bool) (o_params o_vk : path) (r : rnd) (d : files) : res files :=
  params <-? generate_keys r ;
  vk <-? f_vk Fm (truncate_verifying_key (b_vk B params)) ;
  Ok (if params_first then fs_write o_vk vk (fs_write o_params (b_write B params) d)
      else fs_write o_params (b_write B params) (fs_write o_vk vk d)).
(** cli_prove (macros.rs:410-430, 646-669, 884-907, 1126-1144) *)
Definition cli_prove (o_params o_object o_proof o_inputs : path) (r : rnd) (d : files) : res files :=
  pb <-? fs_read o_params d ;
  params <-? unwrap (b_read B pb) ;
  ob <-? fs_read o_object d ;
  vw <-? unwrap (obj_parse ob) ;
  proof <-? prove (fst vw) (snd vw) params r ;
  oi <-? co_get_inputs tp (Some (fst vw)) ;
  inputs <-? unwrap oi ;
  pf <-? f_proof Fm proof ;
  ins <-? f_inputs Fm inputs ;
  Ok (fs_write o_inputs ins (fs_write o_proof pf d)).
(** cli_verify (macros.rs:382-401, 618-637, 856-875, 1094-1117): what is printed *)
Definition cli_verify (o_vk o_proof o_inputs : path) (d : files) : res bool :=
  vb <-? fs_read o_vk d ;
  pb <-? fs_read o_proof d ;
  ib <-? fs_read o_inputs d ;
  vk <-? f_vk_read Fm vb ;
  proof <-? f_proof_read Fm pb ;
  inputs <-? f_inputs_read Fm ib ;
  r <-? verify E vk proof inputs ;
  Ok (match r with Some b => b | None => false end).
(** cli_generate_test_data (macros.rs:403-408, 639-644, 877-882, 1119-1124) *)
Definition cli_generate_test_data (test_data : val p tp * val p ts) (o_object : path) (d : files) : files :=
  fs_write o_object (obj_print test_data) d.
End Commands.

(** cli_generate_verifier (macros.rs:371-380, ethereum only). It calls [write], which
    may take only a part of the bytes; [n] is how many it takes. *)
Definition cli_generate_verifier (SJ : SerdeJson) (chk : bool) (n : nat) (o_vk o_solidity : path) (d : files) : res files :=
  vb <-? fs_read o_vk d ;
  vk <-? from_json SJ (vd_unjson (q := bn_q)) vb ;
  sol <-? generate_sol_data chk vk ;
  Ok (fs_write o_solidity (firstn n sol) d).
