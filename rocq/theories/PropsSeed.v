(** Generated from SeedClaims.v by tools/genprops.py. *)
From Verif Require Import SeedClaims.
Open Scope Z_scope.

(** The [k]-th word is little-endian word [k mod 8] of the hash of the block number
    [k / 8] (8 bytes, little endian) followed by the salt, here the hash of the
    caller's salt. Without overflow checks the block number wraps at 2^64, which is
    what [le_bytes 8] does. *)
Theorem C59_stream : forall (chk : bool) (n : nat), (chk = true -> Z.of_nat n <= 8 * (2 ^ 64 - 1)) ->
  let word (salt : list Z) (k : nat) :=
    le_val (firstn 4 (skipn (4 * Nat.modulo k 8) (blake2s 32 PERSONALIZATION (le_bytes 8 (Z.of_nat k / 8) ++ salt)))) in
  (exists s, draw32 chk n sb_new = Ok (map (word []) (seq 0 n), s)) /\
  (forall salt : list Z, exists s0 s, sb_new_with_salt salt = Ok s0 /\
     draw32 chk n s0 = Ok (map (word (blake2s 32 [] salt)) (seq 0 n), s)).
Proof. exact claim_C59_stream. Qed.
Print Assumptions C59_stream.

Theorem C59_words : forall (chk : bool) (n : nat) (s0 : Seedbox) (ws : list Z) (s : Seedbox),
  s0 = sb_new \/ (exists salt, sb_new_with_salt salt = Ok s0) -> (chk = true -> Z.of_nat n <= 8 * (2 ^ 64 - 1)) ->
  draw32 chk n s0 = Ok (ws, s) -> length ws = n /\ Forall (fun w => 0 <= w < 2 ^ 32) ws.
Proof. exact claim_C59_words. Qed.
Print Assumptions C59_words.

(** Where the block counter overflows, a build with overflow checks panics. *)
Theorem C59_overflow : forall (n : nat) (ws : list Z) (s : Seedbox), Z.of_nat n = 8 * (2 ^ 64 - 1) ->
  draw32 true n sb_new = Ok (ws, s) -> next_u32 true s = Panic.
Proof. exact claim_C59_overflow. Qed.
Print Assumptions C59_overflow.

(** Grouping of the draws does not matter. *)
Theorem C59_grouping : forall (chk : bool) (n m : nat) (s : Seedbox),
  draw32 chk (n + m) s = (a <-? draw32 chk n s ; b <-? draw32 chk m (snd a) ; Ok (fst a ++ fst b, snd b)) /\
  draw64 chk n s = (d <-? draw32 chk (2 * n) s ;
    Ok (map (fun i => nth (2 * i) (fst d) 0 * 2 ^ 32 + nth (2 * i + 1) (fst d) 0) (seq 0 n), snd d)).
Proof. exact claim_C59_grouping. Qed.
Print Assumptions C59_grouping.

Example C59_stream_case : exists a l, rmap fst (draw32 true 9 sb_new) = Ok (a :: l) /\ length l = 8%nat /\ nth 7 l 0 <> a.
Proof. exact case_C59_stream. Qed.

(** RFC 7693, appendix B: BLAKE2s-256 of "abc". *)
Example C59_hash_case : blake2s 32 [] [97; 98; 99] =
  [0x50; 0x8C; 0x5E; 0x8C; 0x32; 0x7C; 0x14; 0xE2; 0xE1; 0xA7; 0x2B; 0xA3; 0x4E; 0xEB; 0x45; 0x2F;
   0x37; 0x45; 0x8B; 0x20; 0x9E; 0xD6; 0x3A; 0x29; 0x4D; 0x99; 0x9B; 0x4C; 0x86; 0x67; 0x59; 0x82].
Proof. exact case_C59_hash. Qed.

Theorem C60_dimensions : forall (p : positive) (fuel : nat) (chk : bool) (t f q : nat) (P : @PoseidonParams p),
  (chk = true -> 2 * Z.of_nat (num_limbs p) * Z.of_nat ((f + q + t * t) * fuel) <= 8 * (2 ^ 64 - 1)) ->
  pp_new fuel chk t f q = Ok (Some P) ->
  ppt P = t /\ ppf P = f /\ ppp P = q /\ length (ppc P) = (f + q)%nat /\ length (ppm P) = t /\
  Forall (fun row => length row = t) (ppm P) /\ Forall (fun x => 0 <= nval x < Zpos p) (ppc P ++ concat (ppm P)).
Proof. exact claim_C60_dimensions. Qed.
Print Assumptions C60_dimensions.

(** No panic: the only thing that can happen is that the draws go on. *)
Theorem C60_no_panic : forall (p : positive) (fuel : nat) (chk : bool) (t f q : nat),
  (chk = true -> 2 * Z.of_nat (num_limbs p) * Z.of_nat ((f + q + t * t) * fuel) <= 8 * (2 ^ 64 - 1)) ->
  @pp_new p fuel chk t f q <> Panic.
Proof. exact claim_C60_no_panic. Qed.
Print Assumptions C60_no_panic.

(** The values: consecutive groups of words of the stream, two words per limb and
    limbs from the lowest, cut to the bit length of the modulus; those below the
    modulus are kept, as Montgomery representations. Constants come first, then the
    matrix, row by row. *)
Theorem C60_values : forall (p : positive) (fuel : nat) (chk : bool) (t f q : nat) (P : @PoseidonParams p),
  (chk = true -> 2 * Z.of_nat (num_limbs p) * Z.of_nat ((f + q + t * t) * fuel) <= 8 * (2 ^ 64 - 1)) ->
  pp_new fuel chk t f q = Ok (Some P) ->
  let salt := Some (blake2s 32 [] (pp_salt t f q)) in
  let limb j i := let k := 2 * (Z.of_nat (num_limbs p) * Z.of_nat j + Z.of_nat i) in sb_word salt k * 2 ^ 32 + sb_word salt (k + 1) in
  let cand j := repr_val (map (limb j) (seq 0 (num_limbs p))) mod 2 ^ Z.of_nat (num_bits p) in
  exists n, ppc P ++ concat (ppm P) =
    map (fun j => fdiv (num (cand j)) (num (2 ^ (64 * Z.of_nat (num_limbs p))))) (filter (fun j => cand j <? Zpos p) (seq 0 n)).
Proof. exact claim_C60_values. Qed.
Print Assumptions C60_values.

(** Deterministic: how long one is prepared to wait does not change the result. *)
Theorem C60_deterministic : forall (p : positive) (fuel fuel' : nat) (chk : bool) (t f q : nat) (P P' : @PoseidonParams p),
  pp_new fuel chk t f q = Ok (Some P) -> pp_new fuel' chk t f q = Ok (Some P') -> P = P'.
Proof. exact claim_C60_deterministic. Qed.
Print Assumptions C60_deterministic.

(** Hashing with the parameters never panics on 1 to [t] inputs. *)
Theorem C60_hash_defined : forall (p : positive) (fuel : nat) (chk : bool) (t f q : nat) (P : @PoseidonParams p) (ins : list (Num p)),
  (chk = true -> 2 * Z.of_nat (num_limbs p) * Z.of_nat ((f + q + t * t) * fuel) <= 8 * (2 ^ 64 - 1)) ->
  pp_new fuel chk t f q = Ok (Some P) -> (0 < length ins <= t)%nat -> exists h, poseidon P ins = Ok h.
Proof. exact claim_C60_hash_defined. Qed.
Print Assumptions C60_hash_defined.

(** The parameter sets used in the repository: the draws end, and no matrix has a
    zero in its first column (the condition of the constraint counts). *)
Theorem C60_library_parameters : forall tfq, In tfq [(4, 8, 54); (3, 8, 53); (2, 8, 53)]%nat -> exists P : @PoseidonParams bn_r,
  pp_new 64 true (fst (fst tfq)) (snd (fst tfq)) (snd tfq) = Ok (Some P) /\
  length (ppc P) = (snd (fst tfq) + snd tfq)%nat /\ length (ppm P) = fst (fst tfq) /\ Forall (fun row => length row = fst (fst tfq)) (ppm P) /\
  Forall (fun row => nth 0 row n0 <> n0) (ppm P).
Proof. exact claim_C60_library_parameters. Qed.
Print Assumptions C60_library_parameters.

Example C60_dimensions_case : exists P : @PoseidonParams 13, pp_new 64 true 2 1 1 = Ok (Some P) /\
  map (fun row => map nval row) (ppm P) <> [] /\ length (ppc P) = 2%nat.
Proof. exact case_C60_dimensions. Qed.
