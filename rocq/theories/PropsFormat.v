(** Generated from FormatClaims.v by tools/genprops.py. *)
From Verif Require Import FormatClaims.
Open Scope Z_scope.

(** What encode writes: the symbols of the alphabet whose base 64 number is the
    byte string as a number, shifted to whole symbols, and '=' up to a multiple of four. *)
Theorem C73_base64_encode : forall bs, Forall byte bs -> exists vs k,
  b64_encode bs = map (fun v => nth (Z.to_nat v) b64_alphabet 0) vs ++ repeat 61 k /\
  (length (b64_encode bs) = 4 * ((length bs + 2) / 3))%nat /\
  (k <= 2 /\ 3 * ((length bs + 2) / 3) = length bs + k)%nat /\ Forall (fun v => 0 <= v < 64) vs /\
  fold_left (fun a v => 64 * a + v) vs 0 = be_val bs * 4 ^ Z.of_nat k.
Proof. exact claim_C73_base64_encode. Qed.
Print Assumptions C73_base64_encode.

Example C73_base64_encode_case : b64_encode [77; 97; 110; 77; 97] = [84; 87; 70; 117; 84; 87; 69; 61] /\ nth 63 b64_alphabet 0 = 47.
Proof. exact case_C73_base64_encode. Qed.

(** What decode accepts: exactly the encodings, with none, some or all of the '='. *)
Theorem C73_base64_decode : forall s bs,
  b64_decode s = Some bs <-> Forall byte bs /\ exists k, s ++ repeat 61 k = b64_encode bs.
Proof. exact claim_C73_base64_decode. Qed.
Print Assumptions C73_base64_decode.

Example C73_base64_decode_case : Forall byte [77] /\ map b64_decode [[84; 81; 61; 61]; [84; 81; 61]; [84; 81]; [84; 82; 61; 61]; [84]; [84; 81; 61; 61; 10]] =
  [Some [77]; Some [77]; Some [77]; None; None; None].
Proof. exact case_C73_base64_decode. Qed.

(** num_vec_to_buf never panics and writes each number big endian in whole limbs. *)
Theorem C73_vec_write : forall p (nums : list (Num p)),
  num_vec_to_buf nums = Ok (concat (map (fun a => be_bytes (8 * num_limbs p) (nval a)) nums)).
Proof. exact claim_C73_vec_write. Qed.
Print Assumptions C73_vec_write.

Example C73_vec_write_case : num_vec_to_buf [num 258; num 7 : Num bn_ord] =
  Ok (repeat 0 30 ++ [1; 2] ++ repeat 0 31 ++ [7]).
Proof. exact case_C73_vec_write. Qed.

(** read_num_vec accepts exactly these buffers, and gives the numbers back. *)
Theorem C73_vec_read : forall p (buf : list Z) (nums : list (Num p)), Forall byte buf ->
  (read_num_vec buf = Some nums <-> buf = concat (map (fun a => be_bytes (8 * num_limbs p) (nval a)) nums)).
Proof. exact claim_C73_vec_read. Qed.
Print Assumptions C73_vec_read.

Example C73_vec_read_case : Forall byte (repeat 0 31 ++ [7]) /\ read_num_vec (p := bn_ord) (repeat 0 31 ++ [7]) = Some [num 7] /\
  read_num_vec (p := bn_ord) (repeat 0 30 ++ [7]) = None /\ read_num_vec (p := bn_ord) (repeat 255 32) = None.
Proof. exact case_C73_vec_read. Qed.

(** Writing and reading back, in a field whose byte size is its limb size *)
Theorem C74_roundtrip : forall (q : positive) (pd : ProofData q) (vd : VKData q) (nums : list (Num q)),
  Nat.eqb (num_bytes q) (8 * num_limbs q) = true -> 1 < Zpos q ->
  (exists j, pd_json pd = Ok j /\ pd_unjson j = Ok (Some pd)) /\
  (exists j, vd_json vd = Ok j /\ vd_unjson j = Ok (Some vd)) /\
  (exists j, vec_json num_ser nums = Ok j /\ vec_unjson num_de j = Ok (Some nums)).
Proof. exact claim_C74_roundtrip. Qed.
Print Assumptions C74_roundtrip.

Example C74_roundtrip_case : Nat.eqb (num_bytes bn_q) (8 * num_limbs bn_q) = true /\ Nat.eqb (num_bytes bn_ord) (8 * num_limbs bn_ord) = true /\
  vec_json num_ser [num 5; num 12 : Num bn_ord] = Ok (JArr [JStr [53]; JStr [49; 50]]).
Proof. exact case_C74_roundtrip. Qed.

Theorem C74_exact : forall (q : positive) (j : json),
  Nat.eqb (num_bytes q) (8 * num_limbs q) = true -> 1 < Zpos q ->
  (exists o, pd_unjson j = Ok o /\ forall d : ProofData q, o = Some d <->
     exists a b c, json_struct [k_a; k_b; k_c] j [a; b; c] /\
       json_pair json_num a (pd_a d) /\ json_pair (json_pair json_num) b (pd_b d) /\ json_pair json_num c (pd_c d)) /\
  (exists o, vd_unjson j = Ok o /\ forall d : VKData q, o = Some d <->
     exists a b c e i, json_struct [k_alpha_g1; k_beta_g2; k_gamma_g2; k_delta_g2; k_ic] j [a; b; c; e; i] /\
       json_pair json_num a (vd_alpha d) /\ json_pair (json_pair json_num) b (vd_beta d) /\
       json_pair (json_pair json_num) c (vd_gamma d) /\ json_pair (json_pair json_num) e (vd_delta d) /\
       exists js, i = JArr js /\ Forall2 (json_pair json_num) js (vd_ic d)) /\
  (exists o, vec_unjson num_de j = Ok o /\ forall l : list (Num q), o = Some l <->
     exists js, j = JArr js /\ Forall2 json_num js l).
Proof. exact claim_C74_exact. Qed.
Print Assumptions C74_exact.

Example C74_exact_case : pd_unjson (q := bn_q) (JObj (demo_pd 8)) = Ok (Some (mkPD (num 7, num 8) ((num 3, num 4), (num 5, num 6)) (num 1, num 2))) /\
  pd_unjson (q := bn_q) (JObj ((k_a, JOther) :: demo_pd 8)) = Ok None /\ pd_unjson (q := bn_q) (JObj (demo_pd 10)) = Ok None /\
  vec_unjson (num_de (q := bn_ord)) (JArr [JStr (biguint_to_string (Zpos bn_ord))]) = Ok None.
Proof. exact case_C74_exact. Qed.
