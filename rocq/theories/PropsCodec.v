(** Generated from CodecClaims.v by tools/genprops.py. *)
From Verif Require Import CodecClaims.
Open Scope Z_scope.

Theorem C46_unsigned : forall (p : positive) (n : Z), 0 <= n ->
  (n < Zpos p -> @from_u64 p n = Ok (num n) /\ @from_u32 p n = Ok (num n) /\ nval (num n : Num p) = n) /\
  (Zpos p <= n -> @from_u64 p n = Panic /\ @from_u32 p n = Panic).
Proof. exact claim_C46_unsigned. Qed.
Print Assumptions C46_unsigned.

Theorem C46_signed : forall (p : positive) (chk : bool) (n : Z),
  (- 2 ^ 63 < n < 2 ^ 63 -> @from_i64 p chk n = if Z.abs n <? Zpos p then Ok (num n) else Panic) /\
  (- 2 ^ 31 < n < 2 ^ 31 -> @from_i32 p chk n = if Z.abs n <? Zpos p then Ok (num n) else Panic).
Proof. exact claim_C46_signed. Qed.
Print Assumptions C46_signed.

(** The two minima: with overflow checks a panic; without, i64::MIN is right and
    i32::MIN is converted to -(2^64 - 2^31). *)
Theorem C46_minimum : forall (p : positive) (chk : bool), 2 ^ 64 < Zpos p ->
  @from_i64 p chk (- 2 ^ 63) = (if chk then Panic else Ok (num (- 2 ^ 63))) /\
  @from_i32 p chk (- 2 ^ 31) = (if chk then Panic else Ok (num (- (2 ^ 64 - 2 ^ 31)))) /\
  (2 ^ 65 < Zpos p -> num (- (2 ^ 64 - 2 ^ 31)) <> num (- 2 ^ 31) :> Num p).
Proof. exact claim_C46_minimum. Qed.
Print Assumptions C46_minimum.

Theorem C46_big : forall (p : positive) (n : Z),
  (0 <= n -> @from_biguint p n = if Nat.eqb (num_bytes p) (8 * num_limbs p) then Ok (num n) else Panic) /\
  (@from_bigint p n = if Nat.eqb (num_bytes p) (8 * num_limbs p) then Ok (num n) else Panic) /\
  nval (num n : Num p) = n mod Zpos p.
Proof. exact claim_C46_big. Qed.
Print Assumptions C46_big.

Theorem C46_bool : forall (p : positive) (b : bool), 1 < Zpos p ->
  nval (from_bool b : Num p) = Z.b2z b /\ into_bool (from_bool b : Num p) = Ok b.
Proof. exact claim_C46_bool. Qed.
Print Assumptions C46_bool.

Theorem C46_into_u64 : forall (p : positive) (a : Num p),
  (into_u64 a = if nval a <? 2 ^ 64 then Ok (nval a) else Panic) /\
  (nval a < 2 ^ 64 -> from_u64 (nval a) = Ok a) /\
  (forall n b, 0 <= n < 2 ^ 64 -> @from_u64 p n = Ok b -> into_u64 b = Ok n).
Proof. exact claim_C46_into_u64. Qed.
Print Assumptions C46_into_u64.

Theorem C46_biguint : forall (p : positive) (a : Num p), Nat.eqb (num_bytes p) (8 * num_limbs p) = true ->
  into_biguint a = Ok (nval a) /\ from_biguint (nval a) = Ok a.
Proof. exact claim_C46_biguint. Qed.
Print Assumptions C46_biguint.

(** Decimal literals: [Num::from("...")] reduces modulo p. *)
Theorem C46_str : forall (p : positive) (s : list Z),
  Forall (fun c => 48 <= c <= 57) s -> s <> [] -> (s = [48] \/ hd 0 s <> 48) ->
  @from_str p s = Ok (num (fold_left (fun a c => 10 * a + (c - 48)) s 0)).
Proof. exact claim_C46_str. Qed.
Print Assumptions C46_str.

Theorem C47_roundtrip : forall (p : positive) (a : Num p) (rest : list Z),
  borsh_de (borsh_ser a ++ rest) = Some (a, rest) /\ length (borsh_ser a) = (8 * num_limbs p)%nat /\
  Forall byte (borsh_ser a) /\ le_val (borsh_ser a) = nval a.
Proof. exact claim_C47_roundtrip. Qed.
Print Assumptions C47_roundtrip.

Theorem C47_exact : forall (p : positive) (buf : list Z), Forall byte buf ->
  match @borsh_de p buf with
  | Some (a, rest) => buf = borsh_ser a ++ rest /\ le_val (firstn (8 * num_limbs p) buf) = nval a
  | None => (length buf < 8 * num_limbs p)%nat \/ Zpos p <= le_val (firstn (8 * num_limbs p) buf)
  end.
Proof. exact claim_C47_exact. Qed.
Print Assumptions C47_exact.

Theorem C47_injective : forall (p : positive) (a b : Num p), borsh_ser a = borsh_ser b -> a = b.
Proof. exact claim_C47_injective. Qed.
Print Assumptions C47_injective.

Theorem C48_roundtrip : forall (p : positive) (a : Num p),
  Nat.eqb (num_bytes p) (8 * num_limbs p) = true -> 1 < Zpos p ->
  exists s, num_to_string a = Ok s /\ num_deserialize s = Ok (Some a) /\
    Forall (fun c => 48 <= c <= 57) s /\ fold_left (fun v c => 10 * v + (c - 48)) s 0 = nval a.
Proof. exact claim_C48_roundtrip. Qed.
Print Assumptions C48_roundtrip.

(** Accepts exactly what num-bigint parses to an integer below p. *)
Theorem C48_exact : forall (p : positive) (s : list Z),
  Nat.eqb (num_bytes p) (8 * num_limbs p) = true -> 1 < Zpos p ->
  num_deserialize s = Ok (match biguint_from_str s with
                          | Some v => if v <? Zpos p then Some (num v : Num p) else None
                          | None => None
                          end).
Proof. exact claim_C48_exact. Qed.
Print Assumptions C48_exact.

Theorem C48_digits : forall (p : positive) (s : list Z),
  Nat.eqb (num_bytes p) (8 * num_limbs p) = true -> 1 < Zpos p ->
  Forall (fun c => 48 <= c <= 57) s -> s <> [] ->
  let v := fold_left (fun a c => 10 * a + (c - 48)) s 0 in
  num_deserialize s = Ok (if v <? Zpos p then Some (num v : Num p) else None).
Proof. exact claim_C48_digits. Qed.
Print Assumptions C48_digits.

(** Not injective: leading zeros, a plus sign and underscores are accepted. *)
Theorem C48_not_injective : forall (p : positive),
  Nat.eqb (num_bytes p) (8 * num_limbs p) = true -> 7 < Zpos p ->
  Forall (fun s => num_deserialize s = Ok (Some (num 7 : Num p))) [[55]; [48; 48; 55]; [43; 55]; [55; 95]; [48; 95; 55]].
Proof. exact claim_C48_not_injective. Qed.
Print Assumptions C48_not_injective.

(** In a field whose byte size is not its limb size printing panics. *)
Theorem C48_other_fields : forall (p : positive) (a : Num p),
  Nat.eqb (num_bytes p) (8 * num_limbs p) = false -> num_to_string a = Panic.
Proof. exact claim_C48_other_fields. Qed.
Print Assumptions C48_other_fields.

Theorem C49_roundtrip : forall (p : positive) (a : Num p), Nat.eqb (num_bytes p) (8 * num_limbs p) = true ->
  exists bs, into_binary_be a = Ok bs /\ length bs = num_bytes p /\ Forall byte bs /\ be_val bs = nval a /\
    from_binary_be bs = Ok a.
Proof. exact claim_C49_roundtrip. Qed.
Print Assumptions C49_roundtrip.

Theorem C49_from_bytes : forall (p : positive) (bs : list Z), Forall byte bs ->
  @from_binary_be p bs = if Nat.eqb (num_bytes p) (8 * num_limbs p) then Ok (num (be_val bs)) else Panic.
Proof. exact claim_C49_from_bytes. Qed.
Print Assumptions C49_from_bytes.

Theorem C49_panics : forall (p : positive) (a : Num p), Nat.eqb (num_bytes p) (8 * num_limbs p) = false ->
  into_binary_be a = Panic /\ into_biguint a = Panic.
Proof. exact claim_C49_panics. Qed.
Print Assumptions C49_panics.

Theorem C49_other : forall (p q : positive) (a : Num p),
  let ok := Nat.eqb (num_bytes p) (8 * num_limbs p) && Nat.eqb (num_bytes q) (8 * num_limbs q) in
  into_other q a = (if ok then Ok (num (nval a)) else Panic) /\
  @from_other q p a = (if ok then Ok (num (nval a)) else Panic).
Proof. exact claim_C49_other. Qed.
Print Assumptions C49_other.

Theorem C50_iterators : forall (p : positive) (a : Num p),
  let bits := map (fun i => Z.testbit (nval a) (Z.of_nat i)) (seq 0 (64 * num_limbs p)) in
  bititer_collect (S (64 * num_limbs p)) (bititer_new (into_repr a)) = Ok bits /\
  bititer_be (into_repr a) = rev bits /\ length bits = (64 * num_limbs p)%nat /\
  fold_right (fun b z => Z.b2z b + 2 * z) 0 bits = nval a.
Proof. exact claim_C50_iterators. Qed.
Print Assumptions C50_iterators.

(** Cases: the four fields of the library, and a field where the sizes differ. *)
Example C46_big_case : Forall (fun p => Nat.eqb (num_bytes p) (8 * num_limbs p) = true /\ 2 ^ 65 < Zpos p) [bn_r; bn_l; bls_r; bls_l] /\
  Nat.eqb (num_bytes 101) (8 * num_limbs 101) = false.
Proof. exact case_C46_big. Qed.

Example C46_signed_case : exists a : Num bn_r, from_i32 true (-5) = Ok a /\ nval a = Zpos bn_r - 5.
Proof. exact case_C46_signed. Qed.

Example C46_unsigned_case : @from_u64 101 100 <> Panic /\ @from_u64 101 101 = Panic.
Proof. exact case_C46_unsigned. Qed.

Example C46_into_u64_case : into_u64 (num (2 ^ 64 - 1) : Num bn_r) = Ok (2 ^ 64 - 1) /\ into_u64 (num (2 ^ 64) : Num bn_r) = Panic.
Proof. exact case_C46_into_u64. Qed.

Example C46_str_case : exists a : Num 101, from_str [49; 48; 53] = Ok a /\ nval a = 4.
Proof. exact case_C46_str. Qed.

Example C47_exact_case : @borsh_de 101 [101; 0; 0; 0; 0; 0; 0; 0] = None /\ @borsh_de 101 [1; 0; 0] = None /\
  borsh_ser (num 100 : Num 101) = [100; 0; 0; 0; 0; 0; 0; 0].
Proof. exact case_C47_exact. Qed.

Example C48_digits_case : exists a : Num bn_l, num_deserialize [48; 49; 50] = Ok (Some a) /\ nval a = 12.
Proof. exact case_C48_digits. Qed.

Example C49_roundtrip_case : exists bs, into_binary_be (num 258 : Num bn_r) = Ok bs /\ bs = repeat 0 30 ++ [1; 2].
Proof. exact case_C49_roundtrip. Qed.

Example C50_iterators_case : firstn 4 (iterbit_le (num 5 : Num 101)) = [true; false; true; false] /\ length (iterbit_le (num 5 : Num 101)) = 64%nat.
Proof. exact case_C50_iterators. Qed.
