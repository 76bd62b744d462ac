(** Generated from HashClaims.v by tools/genprops.py. *)
From Verif Require Import HashClaims.
Open Scope Z_scope.

(** Every message is padded with zero bytes to whole blocks of 64, at least one, and the
    blocks are compressed in order; the counter is the number of message bytes so far and
    only the last block has the final flag. *)
Theorem C59_blocks : forall (nn : nat) (person msg : list Z),
  let len := length msg in
  let n := Nat.max 1 (Nat.div (len + 63) 64) in
  let padded := msg ++ repeat 0 (64 * n - len) in
  let start := map (fun i : nat => Z.lxor (nth i blake_iv 0)
    match i with 0%nat => Z.lxor 0x01010000 (Z.of_nat nn) | 6%nat => le_val (firstn 4 person) | 7%nat => le_val (firstn 4 (skipn 4 person)) | _ => 0 end) (seq 0 8) in
  let absorb h i := blake_f h (firstn 64 (skipn (64 * i) padded)) (Z.of_nat (Nat.min (64 * (i + 1)) len)) (Nat.eqb (i + 1) n) in
  blake2s nn person msg = firstn nn (concat (map (le_bytes 4) (fold_left absorb (seq 0 n) start))) /\
  Forall (fun b => 0 <= b < 256) (blake2s nn person msg) /\ ((nn <= 32)%nat -> length (blake2s nn person msg) = nn).
Proof. exact claim_C59_blocks. Qed.
Print Assumptions C59_blocks.

(** The digests of RFC 7693's reference implementation: several blocks, a full block, one
    byte more than a block with a shorter digest, and nothing *)
Theorem C59_digests :  blake2s 32 [] (map Z.of_nat (seq 0 200)) =
    [0x6D; 0x24; 0x4E; 0x1A; 0x06; 0xCE; 0x4E; 0xF5; 0x78; 0xDD; 0x0F; 0x63; 0xAF; 0xF0; 0x93; 0x67;
     0x06; 0x73; 0x51; 0x19; 0xCA; 0x9C; 0x8D; 0x22; 0xD8; 0x6C; 0x80; 0x14; 0x14; 0xAB; 0x97; 0x41] /\
  blake2s 32 PERSONALIZATION (map Z.of_nat (seq 0 64)) =
    [0xB1; 0x5F; 0x62; 0x34; 0x8B; 0x42; 0x40; 0x59; 0x65; 0xC0; 0xAD; 0xA5; 0x8D; 0x45; 0x98; 0x63;
     0x84; 0x5F; 0x24; 0x8E; 0x58; 0x56; 0xFC; 0xDD; 0x16; 0x31; 0x9D; 0xFC; 0x44; 0xD4; 0x16; 0x31] /\
  blake2s 20 PERSONALIZATION (repeat 0 65) =
    [0x33; 0x56; 0xDF; 0x3E; 0x68; 0x6A; 0xD9; 0x1A; 0x56; 0x43; 0xCD; 0x15; 0xE5; 0x97; 0x5F; 0x4B; 0x01; 0xF8; 0x01; 0x54] /\
  blake2s 32 [] [] =
    [0x69; 0x21; 0x7A; 0x30; 0x79; 0x90; 0x80; 0x94; 0xE1; 0x11; 0x21; 0xD0; 0x42; 0x35; 0x4A; 0x7C;
     0x1F; 0x55; 0xB6; 0x48; 0x2C; 0xA1; 0xA5; 0x1E; 0x1B; 0x25; 0x0D; 0xFD; 0x1E; 0xD0; 0xEE; 0xF9].
Proof. exact claim_C59_digests. Qed.
Print Assumptions C59_digests.

Example C59_blocks_case : length (blake2s 32 [] (repeat 1 129)) = 32%nat /\ blake2s 32 [] (repeat 0 64) <> blake2s 32 [] (repeat 0 65).
Proof. exact case_C59_blocks. Qed.
