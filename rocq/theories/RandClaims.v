(** Claims about native field arithmetic (native/num.rs) and system randomness (core/osrng.rs). *)

From Verif Require Export OsRng CodecSpec Toy FieldTheory NumClaims Certs SeedSpec.
From Coq Require Import Znumtheory Zpow_facts.
Open Scope Z_scope.

(* C70 *)
Lemma claim_C70_ring : forall (p : positive) (a b : Num p),
  nval (a + b)%num = (nval a + nval b) mod Zpos p /\ nval (a - b)%num = (nval a - nval b) mod Zpos p /\
  nval (a * b)%num = (nval a * nval b) mod Zpos p /\ nval (- a)%num = (- nval a) mod Zpos p /\
  nval (ndouble a) = (2 * nval a) mod Zpos p /\ nval (nsquare a) = (nval a ^ 2) mod Zpos p /\
  (neqb a b = true <-> nval a = nval b) /\ (neqb a b = true <-> a = b) /\ (nis_zero a = true <-> nval a = 0).
Proof.
  intros p a b. do 4 (split; [reflexivity|]).
  split. { unfold ndouble, nadd. rewrite nval_num. f_equal. lia. }
  split. { unfold nsquare, nmul. rewrite nval_num. f_equal. ring. }
  split; [apply Z.eqb_eq|]. split; [apply neqb_eq|apply Z.eqb_eq].
Qed.
Section PrimeClaims.
Variable p : positive.
Hypothesis Hp : Prime p.
Add Field rc_field : (num_field Hp) (morphism (@num_morph p), constants [num_cst], power_tac (@num_power p) [num_pow_cst]).
Lemma div_unique (a b c : Num p) : b <> n0 -> (c * b)%num = a -> fdiv a b = c.
Proof using Hp. intros N <-. field. exact N. Qed.
Lemma div_mul (a b : Num p) : b <> n0 -> (fdiv a b * b)%num = a.
Proof using Hp. intros N. field. exact N. Qed.
(** Division panics exactly on zero and is the inverse of multiplication. *)
Lemma claim_C70_division : forall a b : Num p,
  (ninv b = Panic <-> nval b = 0) /\ (forall i, ninv b = Ok i <-> (nval i * nval b) mod Zpos p = 1) /\
  (ndiv a b = Panic <-> nval b = 0) /\ (forall c, ndiv a b = Ok c <-> nval b <> 0 /\ (nval c * nval b) mod Zpos p = nval a).
Proof using Hp.
  intros a b. assert (P1 : 1 < Zpos p) by now destruct Hp.
  assert (Z0 : nval b = 0 <-> b = n0).
  { split; [|intros ->; apply nval_zero]. intros E. apply num_eq. now rewrite nval_zero. }
  assert (N1 : nval (n1 : Num p) = 1) by (apply nval_num_small; lia).
  destruct (Z.eq_dec (nval b) 0) as [E|E].
  - assert (b = n0) by now apply Z0. subst b.
    assert (I : ninv (n0 : Num p) = Panic) by reflexivity. assert (D : ndiv a (n0 : Num p) = Panic) by reflexivity.
    rewrite I, D. split; [tauto|]. split; [intros i; split; [discriminate|]; rewrite nval_zero, Z.mul_0_r, Zmod_0_l; lia|].
    split; [tauto|]. intros c. split; [discriminate|]. tauto.
  - assert (N : b <> n0) by tauto. assert (K : forall c d : Num p, (c * b)%num = d <-> (nval c * nval b) mod Zpos p = nval d).
    { intros c d. split; [intros <-; reflexivity|]. intros X. apply num_eq. exact X. }
    rewrite (ninv_ok _ N), (ndiv_ok _ _ N). split; [split; [discriminate|tauto]|].
    split. { intros i. rewrite <- N1, <- K. split.
      - intros X. assert (i = finv b) by congruence. subst i. now apply (finv_l Hp).
      - intros X. f_equal. rewrite <- (div_unique n1 b i N X). unfold fdiv. ring. }
    split; [split; [discriminate|tauto]|]. intros c. rewrite <- K. split.
    + intros X. split; auto. assert (c = fdiv a b) by congruence. subst c. field. exact N.
    + intros [_ X]. f_equal. now apply div_unique.
Qed.
End PrimeClaims.
(** Of a number and its negative exactly one is odd, if the modulus is. *)
Lemma claim_C70_parity : forall (p : positive) (a : Num p),
  (nis_odd a = true <-> Z.Odd (nval a)) /\ (nis_even a = true <-> Z.Even (nval a)) /\
  (Z.Odd (Zpos p) -> nval a <> 0 -> nis_odd (- a)%num = negb (nis_odd a)).
Proof.
  intros p a. split; [apply Z.odd_spec|]. split; [apply Z.even_spec|]. intros O N. apply Z.odd_spec in O.
  unfold nis_odd, nneg. rewrite nval_num. pose proof (nval_range a).
  replace (- nval a mod Zpos p) with (Zpos p - nval a).
  - rewrite Z.odd_sub, O. destruct (Z.odd (nval a)); reflexivity.
  - apply (Z.mod_unique_pos _ _ (-1)); lia.
Qed.

(** A word of the system generator: the four bytes, the first is the high one; a panic if the system
    has none. Every word comes from exactly one buffer. *)
Lemma claim_C70_word : forall (sys : nat -> option (list Z)) (n : nat),
  (sys n = None -> os_next_u32 sys n = Panic) /\
  (forall b0 b1 b2 b3, sys n = Some [b0; b1; b2; b3] ->
     os_next_u32 sys n = Ok (b0 * 2 ^ 24 + b1 * 2 ^ 16 + b2 * 2 ^ 8 + b3, S n)) /\
  (forall w, 0 <= w < 2 ^ 32 -> exists b, (Forall (fun x => 0 <= x < 256) b /\ length b = 4%nat /\ be_val b = w) /\
     forall b', Forall (fun x => 0 <= x < 256) b' -> length b' = 4%nat -> be_val b' = w -> b' = b).
Proof.
  intros sys n. split; [intros E; unfold os_next_u32; now rewrite E|]. split.
  - intros b0 b1 b2 b3 E. unfold os_next_u32. rewrite E. cbn [unwrap rbind]. unfold be_val. cbn [fold_left]. do 2 f_equal. ring.
  - intros w W. exists (be_bytes 4 w). split; [split; [apply be_bytes_byte|]|].
    + split; [apply be_bytes_length|]. rewrite be_val_be_bytes. apply Z.mod_small. exact W.
    + intros b' B L <-. rewrite <- L. symmetry. now apply be_bytes_be_val.
Qed.

(** The integer that an attempt to draw a number makes of the bytes it gets. *)
Definition attempt (L : nat) (sys : nat -> option (list Z)) (n : nat) : Z :=
  let buf i := match sys i with Some b => b | None => [] end in
  repr_val (map (fun i => be_val (buf (n + 2 * i)%nat ++ buf (n + 2 * i + 1)%nat)) (seq 0 L)).
Lemma os_draw64_ok sys : (forall n, exists b, sys n = Some b /\ length b = 4%nat) -> forall k n,
  exists ws, os_draw64 sys k n = Ok (ws, (n + 2 * k)%nat) /\ repr_val ws = attempt k sys n.
Proof.
  intros HS. induction k as [|k IH]; intros n.
  - exists []. cbn. now rewrite Nat.add_0_r.
  - cbn [os_draw64]. unfold os_next_u64, os_next_u32. destruct (HS n) as [b [E L]]. destruct (HS (n + 1)%nat) as [b' [E' L']].
    rewrite E. cbn [unwrap rbind fst snd]. replace (S n) with (n + 1)%nat by lia. rewrite E'. cbn [unwrap rbind fst snd].
    replace (S (n + 1)) with (n + 2)%nat by lia. destruct (IH (n + 2)%nat) as [ws [-> V]]. cbn [rbind fst snd].
    eexists. split; [f_equal; f_equal; lia|]. cbn [repr_val]. rewrite V. unfold attempt.
    cbn [seq map repr_val]. rewrite !Nat.add_0_r, E, E'. rewrite be_val_app, L'. f_equal. f_equal. rewrite <- seq_shift, map_map.
    f_equal. apply map_ext. intros i. replace (n + 2 * S i)%nat with (n + 2 + 2 * i)%nat by lia. reflexivity.
Qed.
Lemma pow64_neq0 p : prime (Zpos p) -> Zpos p <> 2 -> (num (2 ^ (64 * Z.of_nat (num_limbs p))) : Num p) <> n0.
Proof.
  intros Hp H2 E. apply (f_equal nval) in E. rewrite nval_num, nval_zero in E. apply Z.mod_divide in E; [|lia].
  apply H2. apply (prime_power_prime _ _ (64 * Z.of_nat (num_limbs p))); auto using prime_2. lia.
Qed.
(** A drawn number: attempts are made until one, cut to the bit length of the modulus, is below it;
    its value is the number's Montgomery form. Nothing panics unless the system does. *)
Lemma claim_C70_rand : forall (p : positive) (sys : nat -> option (list Z)), Prime p -> Zpos p <> 2 ->
  (forall n, exists b, sys n = Some b /\ length b = 4%nat) -> forall (fuel n : nat),
  let L := num_limbs p in let cut j := attempt L sys (n + 2 * L * j) mod 2 ^ Z.of_nat (num_bits p) in
  os_gen_num sys fuel n <> @Panic (option (Num p * nat)) /\
  (forall (a : Num p) (n' : nat), os_gen_num sys fuel n = Ok (Some (a, n')) <-> exists k, (k < fuel)%nat /\ n' = (n + 2 * L * (k + 1))%nat /\
     (forall j, (j < k)%nat -> Zpos p <= cut j) /\ cut k < Zpos p /\ (nval a * 2 ^ (64 * Z.of_nat L)) mod Zpos p = cut k).
Proof.
  intros p sys Hp H2 HS fuel. induction fuel as [|fuel IH]; intros n L cut.
  - split; [discriminate|]. intros a n'. split; [discriminate|]. intros [k [? _]]. lia.
  - cbn [os_gen_num]. destruct (os_draw64_ok sys HS L n) as [ws [E V]]. fold L. rewrite E. cbn [rbind fst snd].
    assert (C0 : shave (p := p) (repr_val ws) = cut 0%nat).
    { unfold shave, cut. rewrite V. do 2 f_equal. lia. }
    rewrite C0. assert (CR : 0 <= cut 0%nat) by (apply Z.mod_pos_bound, Z.pow_pos_nonneg; lia).
    assert (M : forall a : Num p, cut 0%nat < Zpos p -> (nval a * 2 ^ (64 * Z.of_nat L)) mod Zpos p = cut 0%nat <-> a = of_mont (cut 0%nat)).
    { intros a Lt. unfold of_mont. fold L. pose proof (pow64_neq0 p Hp H2) as N. fold L in N.
      assert (X : (nval a * 2 ^ (64 * Z.of_nat L)) mod Zpos p = nval (a * num (2 ^ (64 * Z.of_nat L)))%num)
        by (unfold nmul; rewrite !nval_num, Zmult_mod_idemp_r; reflexivity).
      rewrite X. split.
      - intros Y. symmetry. apply (div_unique p Hp); auto. apply num_eq. rewrite Y, nval_num_small; lia.
      - intros ->. transitivity (nval (num (cut 0%nat) : Num p)); [|apply nval_num_small; lia]. f_equal.
        now apply (div_mul p Hp). }
    destruct (Z.ltb_spec (cut 0%nat) (Zpos p)) as [Lt|Ge].
    + split; [discriminate|]. intros a n'. split.
      * intros X. exists 0%nat. split; [lia|]. split; [injection X; lia|]. split; [lia|]. split; [exact Lt|]. apply M; auto. congruence.
      * intros [k [K1 [K2 [K3 [K4 K5]]]]]. destruct k as [|k]; [|specialize (K3 0%nat ltac:(lia)); lia].
        apply M in K5; auto. subst a n'. do 3 f_equal. lia.
    + destruct (IH (n + 2 * L)%nat) as [I1 I2]. split; [exact I1|]. intros a n'. rewrite I2. fold L.
      assert (CS : forall j, attempt L sys (n + 2 * L + 2 * L * j) mod 2 ^ Z.of_nat (num_bits p) = cut (S j))
        by (intros j; unfold cut; do 2 f_equal; lia).
      split.
      * intros [k [K1 [K2 [K3 [K4 K5]]]]]. exists (S k). rewrite CS in K4, K5. split; [lia|]. split; [lia|]. split; [|auto].
        intros [|j] J; [exact Ge|]. rewrite <- CS. apply K3. lia.
      * intros [k [K1 [K2 [K3 [K4 K5]]]]]. destruct k as [|k]; [lia|]. exists k. rewrite CS. split; [lia|]. split; [lia|]. split; [|auto].
        intros j J. rewrite CS. apply K3. lia.
Qed.
(** No number is preferred: each is the outcome of exactly one attempt for each value of the bits that are cut off,
    more than half of the attempts succeed, and the attempts are the byte sequences, one to one. *)
Lemma claim_C70_uniform : forall p : positive, Prime p -> Zpos p <> 2 ->
  let L := num_limbs p in let B := Z.of_nat (num_bits p) in
  (forall (a : Num p) h, 0 <= h < 2 ^ (64 * Z.of_nat L - B) -> exists z,
     (0 <= z < 2 ^ (64 * Z.of_nat L) /\ z / 2 ^ B = h /\ z mod 2 ^ B = (nval a * 2 ^ (64 * Z.of_nat L)) mod Zpos p) /\
     forall z', 0 <= z' < 2 ^ (64 * Z.of_nat L) -> z' / 2 ^ B = h -> z' mod 2 ^ B = (nval a * 2 ^ (64 * Z.of_nat L)) mod Zpos p -> z' = z) /\
  2 ^ B <= 2 * Zpos p /\ Zpos p <= 2 ^ B.
Proof.
  intros p Hp H2 L B.
  assert (BB : 2 ^ B <= 2 * Zpos p /\ Zpos p < 2 ^ B /\ B <= 64 * Z.of_nat L). 
  { pose proof (num_bits_pos p). pose proof (num_bits_upper p). pose proof (num_bits_lower p) as X. pose proof (num_limbs_bound p) as Y. fold L in Y. fold B in H0, X.
    assert (E : 2 ^ B = 2 * 2 ^ (B - 1)) by (rewrite <- Z.pow_succ_r by (unfold B; lia); f_equal; lia).
    split; [lia|]. split; [lia|]. apply (Z.pow_le_mono_r_iff 2); lia. }
  destruct BB as [B1 [B2 B3]]. split; [|lia]. intros a h Hh.
  assert (P0 : 0 < 2 ^ B) by (apply Z.pow_pos_nonneg; lia).
  set (m := (nval a * 2 ^ (64 * Z.of_nat L)) mod Zpos p). assert (Hm : 0 <= m < 2 ^ B) by (pose proof (Z.mod_pos_bound (nval a * 2 ^ (64 * Z.of_nat L)) (Zpos p) eq_refl); unfold m; lia).
  exists (2 ^ B * h + m).
  assert (T : 2 ^ (64 * Z.of_nat L) = 2 ^ B * 2 ^ (64 * Z.of_nat L - B)) by (rewrite <- Z.pow_add_r by lia; f_equal; lia).
  split.
  - split; [rewrite T; nia|]. split; [symmetry; apply (Z.div_unique_pos _ _ _ m); lia|symmetry; apply (Z.mod_unique_pos _ _ h); lia].
  - intros z' _ D M. rewrite (Z.div_mod z' (2 ^ B)), D, M by lia. reflexivity.
Qed.

(** ** Cases *)
Lemma case_C70_division : Prime 73 /\ nval (num 7 : Num 73) <> 0 /\ ndiv (num 3 : Num 73) (num 7) = Ok (num 63) /\ (63 * 7) mod 73 = 3 /\
  ndiv (num 3 : Num 73) (num 0) = Panic.
Proof. split; [exact prime_73|]. repeat split; try (vm_compute; congruence). Qed.
(** Small field: one limb, seven bits; 127 and 4 are the low bits of the first two attempts. *)
Lemma case_C70_rand : let sys n := Some [0; 0; Z.of_nat n; if Nat.leb n 1 then 127 else 4] in
  (forall n, exists b, sys n = Some b /\ length b = 4%nat) /\ num_limbs 73 = 1%nat /\
  attempt 1 sys 0 mod 2 ^ 7 = 127 /\ attempt 1 sys 2 mod 2 ^ 7 = 4 /\
  match os_gen_num (p := 73) sys 5 0 with Ok (Some (a, n)) => nval a * 2 ^ 64 mod 73 = 4 /\ n = 4%nat | _ => False end.
Proof. intros sys. split; [intros n; eexists; split; reflexivity|]. repeat split; vm_compute; reflexivity. Qed.
