(** Conversions and encodings of native numbers: src/native/num.rs:27-68, 82-149, 227-317. Model only. *)

From Verif Require Export Bytes Blake2s.
Open Scope Z_scope.

(** src/constants.rs:1 b"__fawkes" *)
Definition PERSONALIZATION : list Z := [95; 95; 102; 97; 119; 107; 101; 115].

Section Codec.
Context {p : positive}.
Notation F := (Num p).

(** [T::from_repr] (ff): an error unless the integer is below the modulus. *)
Definition from_repr (t : list Z) : option F :=
  if repr_val t <? Zpos p then Some (num (repr_val t)) else None.

(** BorshSerialize (num.rs:29-33) *)
Definition borsh_ser (a : F) : list Z := write_le (into_repr a).
(** BorshDeserialize (num.rs:35-43); [None] is an io::Error *)
Definition borsh_de (buf : list Z) : option (F * list Z) :=
  match read_le (num_limbs p) buf with
  | None => None
  | Some (t, buf) => match from_repr t with None => None | Some a => Some (a, buf) end
  end.

(** num_bytes (num.rs:82-84) *)
Definition num_bytes (q : positive) : nat :=
  (Nat.div (num_bits q) 8 + if Nat.eqb (Nat.modulo (num_bits q) 8) 0 then 0 else 1)%nat.
(** is_odd, is_even (num.rs:87-94) *)
Definition nis_odd (a : F) : bool := Z.odd (nval a).
Definition nis_even (a : F) : bool := Z.even (nval a).

(** into_binary_be (num.rs:96-101) *)
Definition into_binary_be (a : F) : res (list Z) :=
  unwrap (write_slice (write_be (into_repr a)) (num_bytes p)).

(** Common tail of From<BigUint> and From<BigInt> (num.rs:259-265, 279-285) *)
Definition of_remainder (r : Z) : res F :=
  let remainder := biguint_bytes_be r in
  _ <-? rassert (Nat.leb (length remainder) (num_bytes p)) ;
  let rem_buff := repeat 0 (num_bytes p - length remainder) ++ remainder in
  t <-? unwrap (read_be (num_limbs p) rem_buff) ;
  unwrap (from_repr (fst t)).
(** From<BigUint> (num.rs:252-266) *)
Definition from_biguint (x : Z) : res F :=
  order <-? unwrap (write_slice (write_be (char_repr p)) (num_bytes p)) ;
  of_remainder (x mod be_val order).
(** From<BigInt> (num.rs:268-286); [%] on BigInt truncates towards zero *)
Definition from_bigint (x : Z) : res F :=
  order <-? unwrap (write_slice (write_be (char_repr p)) (num_bytes p)) ;
  let order := be_val order in
  let remainder := Z.rem x order in
  let remainder := if remainder <? 0 then remainder + order else remainder in
  of_remainder remainder.
(** from_binary_be (num.rs:103-106) *)
Definition from_binary_be (blob : list Z) : res F := from_biguint (be_val blob).
(** Into<BigUint> (num.rs:227-232) *)
Definition into_biguint (a : F) : res Z := bs <-? into_binary_be a ; Ok (be_val bs).
(** from_seed (num.rs:122-126) *)
Definition from_seed (blob : list Z) : res F :=
  from_binary_be (blake2s (num_bytes p) PERSONALIZATION blob).

(** into_bool (num.rs:141-149) *)
Definition into_bool (a : F) : res bool :=
  if nis_zero a then Ok false else if neqb a n1 then Ok true else Panic.

(** Setting the lowest limb of a zero repr: From<u64>, From<u32> (num.rs:243-250, 300-306) *)
Definition from_limb (n : Z) : res F :=
  unwrap (from_repr (n :: repeat 0 (num_limbs p - 1))).
Definition from_u64 (n : Z) : res F := from_limb n.
Definition from_u32 (n : Z) : res F := from_limb n.
(** From<i64> (num.rs:288-298), From<i32> (308-318). [chk]: overflow checks of
    the build (debug); without them [abs] of the minimum wraps to itself. The
    cast to u64 sign-extends. *)
Definition from_signed (chk : bool) (bits : Z) (n : Z) : res F :=
  a <-? (if n =? - 2 ^ (bits - 1) then if chk then Panic else Ok n else Ok (Z.abs n)) ;
  r <-? from_limb (a mod 2 ^ 64) ;
  Ok (if 0 <=? n then r else nneg r).
Definition from_i64 (chk : bool) (n : Z) : res F := from_signed chk 64 n.
Definition from_i32 (chk : bool) (n : Z) : res F := from_signed chk 32 n.
(** From<bool> (num.rs:320-328) *)
Definition from_bool (b : bool) : F := if b then n1 else n0.
(** Into<u64> (num.rs:234-241) *)
Definition into_u64 (a : F) : res Z :=
  match into_repr a with
  | [] => Panic
  | w :: t => _ <-? rassert (forallb (fun x => x =? 0) t) ; Ok w
  end.

(** to_string (num.rs:51-55), Serialize (45-49) *)
Definition num_to_string (a : F) : res (list Z) := rmap biguint_to_string (into_biguint a).
(** Deserialize (num.rs:57-68); [Ok None] is a serde error. [Num::from(-1)] is From<i32>. *)
Definition num_deserialize (s : list Z) : res (option F) :=
  match biguint_from_str s with
  | None => Ok None
  | Some bn =>
      m1 <-? from_i32 true (-1) ;
      mx <-? into_biguint m1 ;
      if mx <? bn then Ok None else rmap Some (from_biguint bn)
  end.

(** [T::from_str] (ff_ce): no sign, no leading zero, ASCII digits, reduction mod p. *)
Fixpoint ff_digits (s : list Z) (first : bool) (acc : F) : option F :=
  match s with
  | [] => Some acc
  | c :: s =>
      if (48 <=? c) && (c <=? 57) then
        if first && (c =? 48) then None else ff_digits s false (acc * num 10 + num (c - 48))%num
      else None
  end.
Definition ff_from_str (s : list Z) : option F :=
  match s with
  | [] => None
  | [c] => if c =? 48 then Some n0 else ff_digits s true n0
  | _ => ff_digits s true n0
  end.
(** From<&str> (num.rs:330-334) *)
Definition from_str (s : list Z) : res F := unwrap (ff_from_str s).
End Codec.

(** into_other, from_other (num.rs:108-120) *)
Definition into_other {p} (q : positive) (a : Num p) : res (Num q) :=
  bs <-? into_binary_be a ; from_binary_be bs.
Definition from_other {p} (q : positive) (a : Num q) : res (Num p) :=
  bs <-? into_binary_be a ; from_binary_be bs.
