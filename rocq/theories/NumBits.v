(** Representation of field elements as limbs and bits (native/num.rs). Model only. *)

From Verif Require Export Zp.

(** [T::NUM_BITS]: bit length of the modulus (ff_derive: PrimeFieldParams). *)
Definition num_bits (p : positive) : nat := Pos.size_nat p.

(** Number of 64-bit limbs of [T::Repr]. ff_derive takes the least n with
    2p <= 2^(64 n) (one spare bit); the crate is external, this is its rule. *)
Definition num_limbs (p : positive) : nat :=
  Z.to_nat ((Z.log2_up (2 * Zpos p) + 63) / 64).

(** [into_repr]: little-endian limbs of the canonical integer. *)
Definition limbs_of (n : nat) (z : Z) : list Z :=
  map (fun i => (z / 2 ^ (64 * Z.of_nat i)) mod 2 ^ 64) (seq 0 n).
(** [T::char()]: the modulus as a repr. *)
Definition char_repr (l : positive) : list Z := limbs_of (num_limbs l) (Zpos l).
Definition into_repr {p} (a : Num p) : list Z := limbs_of (num_limbs p) (nval a).

(** BitIteratorLE (num.rs:196-225): state (t, n, sz). *)
Record BitIteratorLE := mkBitIt { it_t : list Z; it_n : nat; it_sz : nat }.
Definition bititer_new (t : list Z) : BitIteratorLE := mkBitIt t 0 (length t * 64).
Definition bititer_next (it : BitIteratorLE) : res (option bool * BitIteratorLE) :=
  if Nat.eqb (it_n it) (it_sz it) then Ok (None, it)
  else
    let part := Nat.div (it_n it) 64 in
    let bit := (it_n it - 64 * part)%nat in
    w <-? unwrap (nth_error (it_t it) part) ;
    Ok (Some (0 <? Z.land w (Z.shiftl 1 (Z.of_nat bit))), mkBitIt (it_t it) (S (it_n it)) (it_sz it)).
(** Draining an iterator ([collect]); [fuel] bounds the number of items. *)
Fixpoint bititer_collect (fuel : nat) (it : BitIteratorLE) : res (list bool) :=
  match fuel with
  | O => Panic
  | S fuel' =>
      r <-? bititer_next it ;
      match fst r with
      | None => Ok []
      | Some b => bs <-? bititer_collect fuel' (snd r) ; Ok (b :: bs)
      end
  end.

(** The bits of iterbit_le (num.rs:132-134), in closed form; that the
    iterator yields exactly this list is theorem [iterbit_le_collect]. *)
Definition iterbit_le {p} (a : Num p) : list bool :=
  map (fun i => Z.testbit (nval a) (Z.of_nat i)) (seq 0 (64 * num_limbs p)).

(** iterbit_be (num.rs:128-130) uses BitIterator of the ff crate: from the most
    significant bit of the repr down. *)
Definition iterbit_be {p} (a : Num p) : list bool := rev (iterbit_le a).
