(** BLAKE2s (RFC 7693), unkeyed, with personalization: the external hash of
    native/num.rs:122-126, native/eddsaposeidon.rs and core/seedbox.rs. Model only. *)

From Coq Require Export ZArith List.
From Verif Require Export Bytes.
Import ListNotations.
Open Scope Z_scope.

Definition w32 (z : Z) : Z := Z.land z 4294967295.
Definition rotr32 (z : Z) (r : Z) : Z := Z.lor (Z.shiftr z r) (w32 (Z.shiftl z (32 - r))).
Definition blake_iv : list Z :=
  [0x6A09E667; 0xBB67AE85; 0x3C6EF372; 0xA54FF53A; 0x510E527F; 0x9B05688C; 0x1F83D9AB; 0x5BE0CD19].
Definition blake_sigma : list (list nat) :=
  [[0; 1; 2; 3; 4; 5; 6; 7; 8; 9; 10; 11; 12; 13; 14; 15];
   [14; 10; 4; 8; 9; 15; 13; 6; 1; 12; 0; 2; 11; 7; 5; 3];
   [11; 8; 12; 0; 5; 2; 15; 13; 10; 14; 3; 6; 7; 1; 9; 4];
   [7; 9; 3; 1; 13; 12; 11; 14; 2; 6; 5; 10; 4; 0; 15; 8];
   [9; 0; 5; 7; 2; 4; 10; 15; 14; 1; 11; 12; 6; 8; 3; 13];
   [2; 12; 6; 10; 0; 11; 8; 3; 4; 13; 7; 5; 15; 14; 1; 9];
   [12; 5; 1; 15; 14; 13; 4; 10; 0; 7; 6; 3; 9; 2; 8; 11];
   [13; 11; 7; 14; 12; 1; 3; 9; 5; 0; 15; 4; 8; 6; 2; 10];
   [6; 15; 14; 9; 11; 3; 0; 8; 12; 2; 13; 7; 1; 4; 10; 5];
   [10; 2; 8; 4; 7; 6; 1; 5; 15; 11; 9; 14; 3; 12; 13; 0]]%nat.

Fixpoint set_nth (i : nat) (x : Z) (l : list Z) : list Z :=
  match i, l with
  | O, _ :: l => x :: l
  | S i, y :: l => y :: set_nth i x l
  | _, [] => []
  end.
Definition blake_g (v : list Z) (a b c d : nat) (x y : Z) : list Z :=
  let va := nth a v 0 in let vb := nth b v 0 in let vc := nth c v 0 in let vd := nth d v 0 in
  let va := w32 (va + vb + x) in
  let vd := rotr32 (Z.lxor vd va) 16 in
  let vc := w32 (vc + vd) in
  let vb := rotr32 (Z.lxor vb vc) 12 in
  let va := w32 (va + vb + y) in
  let vd := rotr32 (Z.lxor vd va) 8 in
  let vc := w32 (vc + vd) in
  let vb := rotr32 (Z.lxor vb vc) 7 in
  set_nth a va (set_nth b vb (set_nth c vc (set_nth d vd v))).
Definition blake_round (m v : list Z) (s : list nat) : list Z :=
  let x i := nth (nth i s O) m 0 in
  let v := blake_g v 0 4 8 12 (x 0%nat) (x 1%nat) in
  let v := blake_g v 1 5 9 13 (x 2%nat) (x 3%nat) in
  let v := blake_g v 2 6 10 14 (x 4%nat) (x 5%nat) in
  let v := blake_g v 3 7 11 15 (x 6%nat) (x 7%nat) in
  let v := blake_g v 0 5 10 15 (x 8%nat) (x 9%nat) in
  let v := blake_g v 1 6 11 12 (x 10%nat) (x 11%nat) in
  let v := blake_g v 2 7 8 13 (x 12%nat) (x 13%nat) in
  blake_g v 3 4 9 14 (x 14%nat) (x 15%nat).
Fixpoint words32 (n : nat) (bs : list Z) : list Z :=
  match n with O => [] | S n => le_val (firstn 4 bs) :: words32 n (skipn 4 bs) end.
Definition xor_at (i : nat) (x : Z) (v : list Z) : list Z := set_nth i (Z.lxor (nth i v 0) x) v.
(** Compression of one 64-byte block; [t] bytes hashed so far, [last] the final flag. *)
Definition blake_f (h : list Z) (block : list Z) (t : Z) (last : bool) : list Z :=
  let m := words32 16 block in
  let v := h ++ blake_iv in
  let v := xor_at 12 (w32 t) v in
  let v := xor_at 13 (w32 (Z.shiftr t 32)) v in
  let v := if last then xor_at 14 4294967295 v else v in
  let v := fold_left (blake_round m) blake_sigma v in
  map (fun i => Z.lxor (nth i h 0) (Z.lxor (nth i v 0) (nth (i + 8) v 0))) (seq 0 8).
Fixpoint blake_blocks (fuel : nat) (h : list Z) (t : Z) (msg : list Z) : list Z :=
  match fuel with
  | O => h
  | S fuel =>
      if Nat.leb (length msg) 64
      then blake_f h (msg ++ repeat 0 (64 - length msg)) (t + Z.of_nat (length msg)) true
      else blake_blocks fuel (blake_f h (firstn 64 msg) (t + 64) false) (t + 64) (skipn 64 msg)
  end.
(** [Blake2s::with_params(nn, &[], &[], person)], update(msg), finalize(): [nn] output
    bytes, no key, no salt; [person] of 8 bytes, or empty for [Blake2s::new]. *)
Definition blake2s (nn : nat) (person msg : list Z) : list Z :=
  let h := xor_at 0 (Z.lxor 16842752 (Z.of_nat nn)) blake_iv in
  let h := xor_at 6 (le_val (firstn 4 person)) h in
  let h := xor_at 7 (le_val (firstn 4 (skipn 4 person))) h in
  let h := blake_blocks (S (Nat.div (length msg) 64)) h 0 msg in
  firstn nn (concat (map (le_bytes 4) h)).
