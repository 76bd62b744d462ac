(** The deterministic generator and the parameters drawn from it:
    src/core/seedbox.rs, src/native/poseidon.rs:18-31, src/native/num.rs:70-74. Model only. *)

From Verif Require Export NumCodec Poseidon.
Open Scope Z_scope.

(** SeedboxBlake2 (seedbox.rs:7-12). [n_iter] is a u64, [buff] is [u8; 32]. *)
Record Seedbox := mkSB { sb_salt : option (list Z); sb_iter : Z; sb_limb : nat; sb_buff : list Z }.

(** new (seedbox.rs:15-22) *)
Definition sb_new : Seedbox := mkSB None 0 8 (repeat 0 32).
(** [x.clone_from_slice(y)] on a 32-byte array *)
Definition copy32 (bs : list Z) : res (list Z) := _ <-? rassert (Nat.eqb (length bs) 32) ; Ok bs.
(** new_with_salt (seedbox.rs:24-36) *)
Definition sb_new_with_salt (salt : list Z) : res Seedbox :=
  buff <-? copy32 (blake2s 32 [] salt) ; Ok (mkSB (Some buff) 0 8 (repeat 0 32)).

(** [n_iter += 1] on u64: panics on overflow when [chk] (debug profile), wraps otherwise *)
Definition u64_succ (chk : bool) (n : Z) : res Z :=
  if n + 1 <? 2 ^ 64 then Ok (n + 1) else if chk then Panic else Ok 0.

(** next_u32 (seedbox.rs:40-62) *)
Definition next_u32 (chk : bool) (s : Seedbox) : res (Z * Seedbox) :=
  s <-? (if Nat.eqb (sb_limb s) 8
         then iter <-? u64_succ chk (sb_iter s) ;
              let msg := le_bytes 8 (sb_iter s) ++ match sb_salt s with Some x => x | None => [] end in
              buff <-? copy32 (blake2s 32 PERSONALIZATION msg) ;
              Ok (mkSB (sb_salt s) iter 0 buff)
         else Ok s) ;
  (* &buff[n_limb*4..(n_limb+1)*4] *)
  _ <-? rassert (Nat.leb ((sb_limb s + 1) * 4) (length (sb_buff s))) ;
  let r := le_val (firstn 4 (skipn (sb_limb s * 4) (sb_buff s))) in
  Ok (r, mkSB (sb_salt s) (sb_iter s) (S (sb_limb s)) (sb_buff s)).

(** rand 0.4 [Rng::next_u64]: two words, the first is the high one. *)
Definition next_u64 (chk : bool) (s : Seedbox) : res (Z * Seedbox) :=
  a <-? next_u32 chk s ; b <-? next_u32 chk (snd a) ; Ok (fst a * 2 ^ 32 + fst b, snd b).

(** [k] words in a row *)
Fixpoint draw32 (chk : bool) (k : nat) (s : Seedbox) : res (list Z * Seedbox) :=
  match k with
  | O => Ok ([], s)
  | S k => a <-? next_u32 chk s ; b <-? draw32 chk k (snd a) ; Ok (fst a :: fst b, snd b)
  end.
(** [rng.gen::<[u64; k]>()]: the limbs in order *)
Fixpoint draw64 (chk : bool) (k : nat) (s : Seedbox) : res (list Z * Seedbox) :=
  match k with
  | O => Ok ([], s)
  | S k => a <-? next_u64 chk s ; b <-? draw64 chk k (snd a) ; Ok (fst a :: fst b, snd b)
  end.

Section Params.
Context {p : positive}.
Notation F := (Num p).

(** ff [Rand for Fr], reached from [Rand for Num] (num.rs:70-74): the limbs of a
    Montgomery representation, the unused top bits cleared, drawn again until below
    the modulus. The loop has no bound in the code; here it has [fuel] rounds, and
    [Ok None] says it was still drawing. *)
Definition shave (z : Z) : Z := z mod 2 ^ Z.of_nat (num_bits p).
Definition of_mont (z : Z) : F := fdiv (num z) (num (2 ^ (64 * Z.of_nat (num_limbs p)))).
Fixpoint gen_num (fuel : nat) (chk : bool) (s : Seedbox) : res (option (F * Seedbox)) :=
  match fuel with
  | O => Ok None
  | S fuel =>
      d <-? draw64 chk (num_limbs p) s ;
      let z := shave (repr_val (fst d)) in
      if z <? Zpos p then Ok (Some (of_mont z, snd d)) else gen_num fuel chk (snd d)
  end.
(** [(0..k).map(|_| seedbox.gen()).collect()] *)
Fixpoint gen_nums (k fuel : nat) (chk : bool) (s : Seedbox) : res (option (list F * Seedbox)) :=
  match k with
  | O => Ok (Some ([], s))
  | S k =>
      a <-? gen_num fuel chk s ;
      match a with
      | None => Ok None
      | Some (x, s) =>
          b <-? gen_nums k fuel chk s ;
          Ok (option_map (fun b => (x :: fst b, snd b)) b)
      end
  end.
Fixpoint gen_rows (r k fuel : nat) (chk : bool) (s : Seedbox) : res (option (list (list F) * Seedbox)) :=
  match r with
  | O => Ok (Some ([], s))
  | S r =>
      a <-? gen_nums k fuel chk s ;
      match a with
      | None => Ok None
      | Some (x, s) =>
          b <-? gen_rows r k fuel chk s ;
          Ok (option_map (fun b => (x :: fst b, snd b)) b)
      end
  end.

(** [format!("fawkes_poseidon(t={},f={},p={})", t, f, p)] as bytes *)
Definition pp_salt (t f q : nat) : list Z :=
  [102; 97; 119; 107; 101; 115; 95; 112; 111; 115; 101; 105; 100; 111; 110; 40; 116; 61]
  ++ biguint_to_string (Z.of_nat t) ++ [44; 102; 61] ++ biguint_to_string (Z.of_nat f)
  ++ [44; 112; 61] ++ biguint_to_string (Z.of_nat q) ++ [41].
(** PoseidonParams::new (poseidon.rs:19-31) *)
Definition pp_new (fuel : nat) (chk : bool) (t f q : nat) : res (option (@PoseidonParams p)) :=
  s <-? sb_new_with_salt (pp_salt t f q) ;
  c <-? gen_nums (f + q) fuel chk s ;
  match c with
  | None => Ok None
  | Some (c, s) =>
      m <-? gen_rows t t fuel chk s ;
      Ok (option_map (fun m => mkPP c (fst m) t f q) m)
  end.
End Params.
