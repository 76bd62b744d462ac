(** Claims about the hash behind the seedbox: C59. *)

From Verif Require Export Seedbox CodecSpec SeedSpec.
From Coq Require Import Lia.
Open Scope Z_scope.

Section Blocks.
Variable msg : list Z.
Notation len := (length msg).
Notation n := (Nat.max 1 (Nat.div (len + 63) 64)).
Definition padded : list Z := msg ++ repeat 0 (64 * n - len).
Definition absorb (h : list Z) (i : nat) : list Z :=
  blake_f h (firstn 64 (skipn (64 * i) padded)) (Z.of_nat (Nat.min (64 * (i + 1)) len)) (Nat.eqb (i + 1) n).
Lemma blocks_at : forall fuel h i pre m, msg = pre ++ m -> length pre = (64 * i)%nat -> (length m < 64 * fuel)%nat -> (i = 0%nat \/ m <> []) ->
  blake_blocks fuel h (Z.of_nat (64 * i)) m = fold_left absorb (seq i (n - i)) h.
Proof.
  induction fuel as [|fuel IH]; intros h i pre m E Lp Lm Ne; [lia|]. cbn [blake_blocks].
  assert (Ll : len = (64 * i + length m)%nat) by (rewrite E, app_length; lia).
  assert (D := Nat.div_mod (len + 63) 64 ltac:(lia)). assert (U := Nat.mod_upper_bound (len + 63) 64 ltac:(lia)).
  assert (Nm : i = 0%nat \/ (0 < length m)%nat) by (destruct Ne as [Ne|Ne]; [now left|right; destruct m; [congruence|cbn; lia]]).
  assert (Sk : skipn (64 * i) padded = m ++ repeat 0 (64 * n - len)).
  { unfold padded. rewrite E at 1. rewrite <- app_assoc, skipn_app, Lp, Nat.sub_diag. rewrite skipn_all2 by lia. reflexivity. }
  destruct (Nat.leb_spec (length m) 64) as [L|L].
  - replace (n - i)%nat with 1%nat by lia. cbn [seq fold_left]. unfold absorb. rewrite Sk.
    replace (64 * n - len)%nat with (64 - length m)%nat by lia. rewrite firstn_all2 by (rewrite app_length, repeat_length; lia).
    replace (Nat.eqb (i + 1) n) with true by (symmetry; apply Nat.eqb_eq; lia).
    replace (Nat.min (64 * (i + 1)) len) with (64 * i + length m)%nat by lia. now rewrite Nat2Z.inj_add.
  - replace (n - i)%nat with (S (n - S i)) by lia. cbn [seq fold_left].
    replace (Z.of_nat (64 * i) + 64) with (Z.of_nat (64 * S i)) by lia.
    rewrite (IH _ (S i) (pre ++ firstn 64 m) (skipn 64 m)).
    + f_equal. unfold absorb. rewrite Sk, firstn_app. replace (64 - length m)%nat with 0%nat by lia. rewrite app_nil_r.
      replace (Nat.eqb (i + 1) n) with false by (symmetry; apply Nat.eqb_neq; lia).
      replace (Nat.min (64 * (i + 1)) len) with (64 * S i)%nat by lia. reflexivity.
    + rewrite <- app_assoc, firstn_skipn. exact E.
    + rewrite app_length, firstn_length, Lp. lia.
    + rewrite skipn_length. lia.
    + right. intros C. apply (f_equal (@length Z)) in C. rewrite skipn_length in C. cbn in C. lia.
Qed.
End Blocks.

(* C59 *)
(** Every message is padded with zero bytes to whole blocks of 64, at least one, and the
    blocks are compressed in order; the counter is the number of message bytes so far and
    only the last block has the final flag. *)
Lemma claim_C59_blocks : forall (nn : nat) (person msg : list Z),
  let len := length msg in
  let n := Nat.max 1 (Nat.div (len + 63) 64) in
  let padded := msg ++ repeat 0 (64 * n - len) in
  let start := map (fun i : nat => Z.lxor (nth i blake_iv 0)
    match i with 0%nat => Z.lxor 0x01010000 (Z.of_nat nn) | 6%nat => le_val (firstn 4 person) | 7%nat => le_val (firstn 4 (skipn 4 person)) | _ => 0 end) (seq 0 8) in
  let absorb h i := blake_f h (firstn 64 (skipn (64 * i) padded)) (Z.of_nat (Nat.min (64 * (i + 1)) len)) (Nat.eqb (i + 1) n) in
  blake2s nn person msg = firstn nn (concat (map (le_bytes 4) (fold_left absorb (seq 0 n) start))) /\
  Forall (fun b => 0 <= b < 256) (blake2s nn person msg) /\ ((nn <= 32)%nat -> length (blake2s nn person msg) = nn).
Proof.
  intros nn person msg len n pad start ab. split; [|split; [exact (blake_bytes nn person msg)|exact (blake_len nn person msg)]].
  unfold blake2s. apply f_equal, f_equal, f_equal.
  change 0 with (Z.of_nat (64 * 0)) at 1. rewrite (blocks_at msg _ _ 0 [] msg); [|reflexivity|reflexivity| |now left].
  2: { assert (D := Nat.div_mod (length msg) 64 ltac:(lia)). assert (U := Nat.mod_upper_bound (length msg) 64 ltac:(lia)). lia. }
  rewrite Nat.sub_0_r. unfold ab, absorb, pad, padded, n, len, start. f_equal.
Qed.
(** The digests of RFC 7693's reference implementation: several blocks, a full block, one
    byte more than a block with a shorter digest, and nothing *)
Lemma claim_C59_digests :
  blake2s 32 [] (map Z.of_nat (seq 0 200)) =
    [0x6D; 0x24; 0x4E; 0x1A; 0x06; 0xCE; 0x4E; 0xF5; 0x78; 0xDD; 0x0F; 0x63; 0xAF; 0xF0; 0x93; 0x67;
     0x06; 0x73; 0x51; 0x19; 0xCA; 0x9C; 0x8D; 0x22; 0xD8; 0x6C; 0x80; 0x14; 0x14; 0xAB; 0x97; 0x41] /\
  blake2s 32 PERSONALIZATION (map Z.of_nat (seq 0 64)) =
    [0xB1; 0x5F; 0x62; 0x34; 0x8B; 0x42; 0x40; 0x59; 0x65; 0xC0; 0xAD; 0xA5; 0x8D; 0x45; 0x98; 0x63;
     0x84; 0x5F; 0x24; 0x8E; 0x58; 0x56; 0xFC; 0xDD; 0x16; 0x31; 0x9D; 0xFC; 0x44; 0xD4; 0x16; 0x31] /\
  blake2s 20 PERSONALIZATION (repeat 0 65) =
    [0x33; 0x56; 0xDF; 0x3E; 0x68; 0x6A; 0xD9; 0x1A; 0x56; 0x43; 0xCD; 0x15; 0xE5; 0x97; 0x5F; 0x4B; 0x01; 0xF8; 0x01; 0x54] /\
  blake2s 32 [] [] =
    [0x69; 0x21; 0x7A; 0x30; 0x79; 0x90; 0x80; 0x94; 0xE1; 0x11; 0x21; 0xD0; 0x42; 0x35; 0x4A; 0x7C;
     0x1F; 0x55; 0xB6; 0x48; 0x2C; 0xA1; 0xA5; 0x1E; 0x1B; 0x25; 0x0D; 0xFD; 0x1E; 0xD0; 0xEE; 0xF9].
Proof. vm_compute. repeat split. Qed.
Lemma case_C59_blocks : length (blake2s 32 [] (repeat 1 129)) = 32%nat /\ blake2s 32 [] (repeat 0 64) <> blake2s 32 [] (repeat 0 65).
Proof. vm_compute. split; [reflexivity|]. intros E. apply (f_equal (fun l => nth 0 l 0)) in E. vm_compute in E. discriminate. Qed.
