(** System randomness: src/core/osrng.rs, and numbers drawn from it
    (src/native/num.rs:70-74). Model only. *)

From Verif Require Export Seedbox.
Open Scope Z_scope.

Section OsRng.
(** The answers of [getrandom] to its successive calls: [None] is an error,
    otherwise the four bytes it has put into the buffer. The generator has no
    state of its own; the state here is the number of calls made. *)
Variable sys : nat -> option (list Z).

(** next_u32 (osrng.rs:13-17) *)
Definition os_next_u32 (n : nat) : res (Z * nat) := buf <-? unwrap (sys n) ; Ok (be_val buf, S n).
(** rand 0.4 [Rng::next_u64], the default method: two words, the first is the high one *)
Definition os_next_u64 (n : nat) : res (Z * nat) :=
  a <-? os_next_u32 n ; b <-? os_next_u32 (snd a) ; Ok (fst a * 2 ^ 32 + fst b, snd b).
(** [rng.gen::<[u64; k]>()] *)
Fixpoint os_draw64 (k : nat) (n : nat) : res (list Z * nat) :=
  match k with
  | O => Ok ([], n)
  | S k => a <-? os_next_u64 n ; b <-? os_draw64 k (snd a) ; Ok (fst a :: fst b, snd b)
  end.
(** [rng.gen::<Num<T>>()] (num.rs:70-74), as in Seedbox.v with this generator *)
Fixpoint os_gen_num {p : positive} (fuel : nat) (n : nat) : res (option (Num p * nat)) :=
  match fuel with
  | O => Ok None
  | S fuel =>
      d <-? os_draw64 (num_limbs p) n ;
      let z := shave (p := p) (repr_val (fst d)) in
      if z <? Zpos p then Ok (Some (of_mont z, snd d)) else os_gen_num fuel (snd d)
  end.
End OsRng.
