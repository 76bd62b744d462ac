(** Generated from RandClaims.v by tools/genprops.py. *)
From Verif Require Import RandClaims.
Open Scope Z_scope.

Theorem C70_ring : forall (p : positive) (a b : Num p),
  nval (a + b)%num = (nval a + nval b) mod Zpos p /\ nval (a - b)%num = (nval a - nval b) mod Zpos p /\
  nval (a * b)%num = (nval a * nval b) mod Zpos p /\ nval (- a)%num = (- nval a) mod Zpos p /\
  nval (ndouble a) = (2 * nval a) mod Zpos p /\ nval (nsquare a) = (nval a ^ 2) mod Zpos p /\
  (neqb a b = true <-> nval a = nval b) /\ (neqb a b = true <-> a = b) /\ (nis_zero a = true <-> nval a = 0).
Proof. exact claim_C70_ring. Qed.
Print Assumptions C70_ring.

(** Division panics exactly on zero and is the inverse of multiplication. *)
Theorem C70_division : forall (p : positive), Prime p ->
 forall a b : Num p,
  (ninv b = Panic <-> nval b = 0) /\ (forall i, ninv b = Ok i <-> (nval i * nval b) mod Zpos p = 1) /\
  (ndiv a b = Panic <-> nval b = 0) /\ (forall c, ndiv a b = Ok c <-> nval b <> 0 /\ (nval c * nval b) mod Zpos p = nval a).
Proof. exact claim_C70_division. Qed.
Print Assumptions C70_division.

(** Of a number and its negative exactly one is odd, if the modulus is. *)
Theorem C70_parity : forall (p : positive) (a : Num p),
  (nis_odd a = true <-> Z.Odd (nval a)) /\ (nis_even a = true <-> Z.Even (nval a)) /\
  (Z.Odd (Zpos p) -> nval a <> 0 -> nis_odd (- a)%num = negb (nis_odd a)).
Proof. exact claim_C70_parity. Qed.
Print Assumptions C70_parity.

(** A word of the system generator: the four bytes, the first is the high one; a panic if the system
    has none. Every word comes from exactly one buffer. *)
Theorem C70_word : forall (sys : nat -> option (list Z)) (n : nat),
  (sys n = None -> os_next_u32 sys n = Panic) /\
  (forall b0 b1 b2 b3, sys n = Some [b0; b1; b2; b3] ->
     os_next_u32 sys n = Ok (b0 * 2 ^ 24 + b1 * 2 ^ 16 + b2 * 2 ^ 8 + b3, S n)) /\
  (forall w, 0 <= w < 2 ^ 32 -> exists b, (Forall (fun x => 0 <= x < 256) b /\ length b = 4%nat /\ be_val b = w) /\
     forall b', Forall (fun x => 0 <= x < 256) b' -> length b' = 4%nat -> be_val b' = w -> b' = b).
Proof. exact claim_C70_word. Qed.
Print Assumptions C70_word.

(** A drawn number: attempts are made until one, cut to the bit length of the modulus, is below it;
    its value is the number's Montgomery form. Nothing panics unless the system does. *)
Theorem C70_rand : forall (p : positive) (sys : nat -> option (list Z)), Prime p -> Zpos p <> 2 ->
  (forall n, exists b, sys n = Some b /\ length b = 4%nat) -> forall (fuel n : nat),
  let L := num_limbs p in let cut j := attempt L sys (n + 2 * L * j) mod 2 ^ Z.of_nat (num_bits p) in
  os_gen_num sys fuel n <> @Panic (option (Num p * nat)) /\
  (forall (a : Num p) (n' : nat), os_gen_num sys fuel n = Ok (Some (a, n')) <-> exists k, (k < fuel)%nat /\ n' = (n + 2 * L * (k + 1))%nat /\
     (forall j, (j < k)%nat -> Zpos p <= cut j) /\ cut k < Zpos p /\ (nval a * 2 ^ (64 * Z.of_nat L)) mod Zpos p = cut k).
Proof. exact claim_C70_rand. Qed.
Print Assumptions C70_rand.

(** No number is preferred: each is the outcome of exactly one attempt for each value of the bits that are cut off,
    more than half of the attempts succeed, and the attempts are the byte sequences, one to one. *)
Theorem C70_uniform : forall p : positive, Prime p -> Zpos p <> 2 ->
  let L := num_limbs p in let B := Z.of_nat (num_bits p) in
  (forall (a : Num p) h, 0 <= h < 2 ^ (64 * Z.of_nat L - B) -> exists z,
     (0 <= z < 2 ^ (64 * Z.of_nat L) /\ z / 2 ^ B = h /\ z mod 2 ^ B = (nval a * 2 ^ (64 * Z.of_nat L)) mod Zpos p) /\
     forall z', 0 <= z' < 2 ^ (64 * Z.of_nat L) -> z' / 2 ^ B = h -> z' mod 2 ^ B = (nval a * 2 ^ (64 * Z.of_nat L)) mod Zpos p -> z' = z) /\
  2 ^ B <= 2 * Zpos p /\ Zpos p <= 2 ^ B.
Proof. exact claim_C70_uniform. Qed.
Print Assumptions C70_uniform.

(** ** Cases *)
Example C70_division_case : Prime 73 /\ nval (num 7 : Num 73) <> 0 /\ ndiv (num 3 : Num 73) (num 7) = Ok (num 63) /\ (63 * 7) mod 73 = 3 /\
  ndiv (num 3 : Num 73) (num 0) = Panic.
Proof. exact case_C70_division. Qed.

(** Small field: one limb, seven bits; 127 and 4 are the low bits of the first two attempts. *)
Example C70_rand_case : let sys n := Some [0; 0; Z.of_nat n; if Nat.leb n 1 then 127 else 4] in
  (forall n, exists b, sys n = Some b /\ length b = 4%nat) /\ num_limbs 73 = 1%nat /\
  attempt 1 sys 0 mod 2 ^ 7 = 127 /\ attempt 1 sys 2 mod 2 ^ 7 = 4 /\
  match os_gen_num (p := 73) sys 5 0 with Ok (Some (a, n)) => nval a * 2 ^ 64 mod 73 = 4 /\ n = 4%nat | _ => False end.
Proof. exact case_C70_rand. Qed.
