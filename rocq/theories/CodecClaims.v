(** Claims about the conversions and encodings of native numbers (native/num.rs). *)

From Verif Require Export CodecSpec EccSpec Curves.
From Verif Require Import Primality.
Open Scope Z_scope.

(* C46 *)
Lemma claim_C46_unsigned : forall (p : positive) (n : Z), 0 <= n ->
  (n < Zpos p -> @from_u64 p n = Ok (num n) /\ @from_u32 p n = Ok (num n) /\ nval (num n : Num p) = n) /\
  (Zpos p <= n -> @from_u64 p n = Panic /\ @from_u32 p n = Panic).
Proof.
  intros p n Hn. unfold from_u64, from_u32. rewrite from_limb_ok. split; intros H.
  - rewrite (proj2 (Z.ltb_lt _ _)) by auto. rewrite nval_num_small by lia. auto.
  - rewrite (proj2 (Z.ltb_ge _ _)) by auto. auto.
Qed.
Lemma claim_C46_signed : forall (p : positive) (chk : bool) (n : Z),
  (- 2 ^ 63 < n < 2 ^ 63 -> @from_i64 p chk n = if Z.abs n <? Zpos p then Ok (num n) else Panic) /\
  (- 2 ^ 31 < n < 2 ^ 31 -> @from_i32 p chk n = if Z.abs n <? Zpos p then Ok (num n) else Panic).
Proof.
  intros p chk n. split; intros H; destruct (Z.ltb_spec (Z.abs n) (Zpos p)).
  - now apply from_i64_ok.
  - apply from_signed_big; auto. lia.
  - now apply from_i32_ok.
  - apply from_signed_big; auto. lia.
Qed.
(** The two minima: with overflow checks a panic; without, i64::MIN is right and
    i32::MIN is converted to -(2^64 - 2^31). *)
Lemma claim_C46_minimum : forall (p : positive) (chk : bool), 2 ^ 64 < Zpos p ->
  @from_i64 p chk (- 2 ^ 63) = (if chk then Panic else Ok (num (- 2 ^ 63))) /\
  @from_i32 p chk (- 2 ^ 31) = (if chk then Panic else Ok (num (- (2 ^ 64 - 2 ^ 31)))) /\
  (2 ^ 65 < Zpos p -> num (- (2 ^ 64 - 2 ^ 31)) <> num (- 2 ^ 31) :> Num p).
Proof.
  intros p chk H. split; [apply from_i64_min; lia|]. split; [now apply from_i32_min|].
  intros H' E. apply (f_equal nval) in E. rewrite !nval_num in E.
  assert (X : forall k, 0 < k < Zpos p -> (- k) mod Zpos p = Zpos p - k).
  { intros k Hk. replace (- k) with ((Zpos p - k) + (-1) * Zpos p) by ring. rewrite Z_mod_plus_full. apply Z.mod_small. lia. }
  rewrite !X in E by lia. lia.
Qed.
Lemma claim_C46_big : forall (p : positive) (n : Z),
  (0 <= n -> @from_biguint p n = if Nat.eqb (num_bytes p) (8 * num_limbs p) then Ok (num n) else Panic) /\
  (@from_bigint p n = if Nat.eqb (num_bytes p) (8 * num_limbs p) then Ok (num n) else Panic) /\
  nval (num n : Num p) = n mod Zpos p.
Proof. intros p n. split; [apply from_biguint_ok|]. split; [apply from_bigint_ok|apply nval_num]. Qed.
Lemma claim_C46_bool : forall (p : positive) (b : bool), 1 < Zpos p ->
  nval (from_bool b : Num p) = Z.b2z b /\ into_bool (from_bool b : Num p) = Ok b.
Proof.
  intros p b H. assert (E1 : nval (n1 : Num p) = 1) by (unfold n1; apply nval_num_small; lia).
  assert (E0 : nval (n0 : Num p) = 0) by apply nval_zero.
  destruct b; cbn [from_bool Z.b2z]; (split; [assumption|]); unfold into_bool.
  - assert (N : nis_zero (n1 : Num p) = false) by (apply nis_zero_neq; intros X; rewrite X in E1; lia). now rewrite N, neqb_refl.
  - now rewrite (proj2 (nis_zero_eq _) eq_refl).
Qed.
Lemma claim_C46_into_u64 : forall (p : positive) (a : Num p),
  (into_u64 a = if nval a <? 2 ^ 64 then Ok (nval a) else Panic) /\
  (nval a < 2 ^ 64 -> from_u64 (nval a) = Ok a) /\
  (forall n b, 0 <= n < 2 ^ 64 -> @from_u64 p n = Ok b -> into_u64 b = Ok n).
Proof.
  intros p a. split; [apply into_u64_ok|]. split.
  - intros H. unfold from_u64. rewrite from_limb_ok, (proj2 (Z.ltb_lt _ _)) by apply nval_range. now rewrite num_nval.
  - intros n b Hn. unfold from_u64. rewrite from_limb_ok. destruct (Z.ltb_spec n (Zpos p)); [|discriminate].
    intros E. assert (b = num n) by congruence. subst b. rewrite into_u64_ok, nval_num_small by lia.
    now rewrite (proj2 (Z.ltb_lt _ _)) by lia.
Qed.
Lemma claim_C46_biguint : forall (p : positive) (a : Num p), Nat.eqb (num_bytes p) (8 * num_limbs p) = true ->
  into_biguint a = Ok (nval a) /\ from_biguint (nval a) = Ok a.
Proof.
  intros p a H. pose proof (into_biguint_ok a) as E. pose proof (@from_biguint_ok p (nval a) (proj1 (nval_range a))) as E'.
  unfold full_bytes in *. rewrite H in *. now rewrite num_nval in E'.
Qed.
(** Decimal literals: [Num::from("...")] reduces modulo p. *)
Lemma claim_C46_str : forall (p : positive) (s : list Z),
  Forall (fun c => 48 <= c <= 57) s -> s <> [] -> (s = [48] \/ hd 0 s <> 48) ->
  @from_str p s = Ok (num (fold_left (fun a c => 10 * a + (c - 48)) s 0)).
Proof.
  intros p s H N Z. unfold from_str. rewrite ff_from_str_ok; auto. apply forallb_forall. intros c Hc.
  rewrite Forall_forall in H. specialize (H c Hc). unfold digit. apply Bool.andb_true_iff. rewrite !Z.leb_le. lia.
Qed.

(* C47 *)
Lemma claim_C47_roundtrip : forall (p : positive) (a : Num p) (rest : list Z),
  borsh_de (borsh_ser a ++ rest) = Some (a, rest) /\ length (borsh_ser a) = (8 * num_limbs p)%nat /\
  Forall byte (borsh_ser a) /\ le_val (borsh_ser a) = nval a.
Proof.
  intros p a rest. split; [apply borsh_roundtrip|]. rewrite borsh_ser_bytes. split; [apply le_bytes_length|].
  split; [apply le_bytes_byte|]. rewrite le_val_le_bytes. apply Z.mod_small. apply nval_lt_bytes.
Qed.
Lemma claim_C47_exact : forall (p : positive) (buf : list Z), Forall byte buf ->
  match @borsh_de p buf with
  | Some (a, rest) => buf = borsh_ser a ++ rest /\ le_val (firstn (8 * num_limbs p) buf) = nval a
  | None => (length buf < 8 * num_limbs p)%nat \/ Zpos p <= le_val (firstn (8 * num_limbs p) buf)
  end.
Proof.
  intros p buf H. destruct (@borsh_de p buf) as [[a rest]|] eqn:E.
  - pose proof (borsh_de_canonical buf a rest H E) as X. split; auto. rewrite X.
    destruct (claim_C47_roundtrip p a rest) as [_ [L [_ V]]]. rewrite <- L, firstn_app, firstn_all, Nat.sub_diag. cbn [firstn]. now rewrite app_nil_r.
  - rewrite borsh_de_spec in E. destruct (Nat.leb_spec (8 * num_limbs p) (length buf)); [|now left]. right.
    cbv zeta in E. destruct (Z.ltb_spec (le_val (firstn (8 * num_limbs p) buf)) (Zpos p)) as [L|L]; [congruence|exact L].
Qed.
Lemma claim_C47_injective : forall (p : positive) (a b : Num p), borsh_ser a = borsh_ser b -> a = b.
Proof.
  intros p a b E. destruct (claim_C47_roundtrip p a []) as [A _]. destruct (claim_C47_roundtrip p b []) as [B _].
  rewrite E in A. congruence.
Qed.

(* C48 *)
Lemma claim_C48_roundtrip : forall (p : positive) (a : Num p),
  Nat.eqb (num_bytes p) (8 * num_limbs p) = true -> 1 < Zpos p ->
  exists s, num_to_string a = Ok s /\ num_deserialize s = Ok (Some a) /\
    Forall (fun c => 48 <= c <= 57) s /\ fold_left (fun v c => 10 * v + (c - 48)) s 0 = nval a.
Proof.
  intros p a H Hp. pose proof (num_to_string_ok a) as E. unfold full_bytes in E. rewrite H in E. eexists. split; [exact E|].
  pose proof (nval_range a) as R. rewrite num_deserialize_ok, to_string_parse by (auto; lia).
  rewrite (proj2 (Z.ltb_lt _ _)), num_nval by lia. split; auto.
  destruct (to_string_spec (nval a) (proj1 R)) as [c [t [E1 [E2 [E3 _]]]]]. rewrite E1. split; [|exact E3].
  rewrite forallb_forall in E2. apply Forall_forall. intros x Hx. specialize (E2 x Hx). unfold digit in E2.
  apply Bool.andb_true_iff in E2. rewrite !Z.leb_le in E2. lia.
Qed.
(** Accepts exactly what num-bigint parses to an integer below p. *)
Lemma claim_C48_exact : forall (p : positive) (s : list Z),
  Nat.eqb (num_bytes p) (8 * num_limbs p) = true -> 1 < Zpos p ->
  num_deserialize s = Ok (match biguint_from_str s with
                          | Some v => if v <? Zpos p then Some (num v : Num p) else None
                          | None => None
                          end).
Proof. intros. rewrite num_deserialize_ok by auto. destruct (biguint_from_str s); auto. Qed.
Lemma claim_C48_digits : forall (p : positive) (s : list Z),
  Nat.eqb (num_bytes p) (8 * num_limbs p) = true -> 1 < Zpos p ->
  Forall (fun c => 48 <= c <= 57) s -> s <> [] ->
  let v := fold_left (fun a c => 10 * a + (c - 48)) s 0 in
  num_deserialize s = Ok (if v <? Zpos p then Some (num v : Num p) else None).
Proof.
  intros p s H Hp Hs N v. rewrite claim_C48_exact by auto. rewrite biguint_parse_digits; auto.
  apply forallb_forall. intros c Hc. rewrite Forall_forall in Hs. specialize (Hs c Hc). unfold digit. apply Bool.andb_true_iff. rewrite !Z.leb_le. lia.
Qed.
(** Not injective: leading zeros, a plus sign and underscores are accepted. *)
Lemma claim_C48_not_injective : forall (p : positive),
  Nat.eqb (num_bytes p) (8 * num_limbs p) = true -> 7 < Zpos p ->
  Forall (fun s => num_deserialize s = Ok (Some (num 7 : Num p))) [[55]; [48; 48; 55]; [43; 55]; [55; 95]; [48; 95; 55]].
Proof.
  intros p H Hp. repeat constructor; rewrite claim_C48_exact by (auto; lia);
  match goal with |- context [biguint_from_str ?s] => let v := eval vm_compute in (biguint_from_str s) in change (biguint_from_str s) with v end;
  cbv iota; now rewrite (proj2 (Z.ltb_lt _ _)) by lia.
Qed.
(** In a field whose byte size is not its limb size printing panics. *)
Lemma claim_C48_other_fields : forall (p : positive) (a : Num p),
  Nat.eqb (num_bytes p) (8 * num_limbs p) = false -> num_to_string a = Panic.
Proof. intros p a H. rewrite num_to_string_ok. unfold full_bytes. now rewrite H. Qed.

(* C49 *)
Lemma claim_C49_roundtrip : forall (p : positive) (a : Num p), Nat.eqb (num_bytes p) (8 * num_limbs p) = true ->
  exists bs, into_binary_be a = Ok bs /\ length bs = num_bytes p /\ Forall byte bs /\ be_val bs = nval a /\
    from_binary_be bs = Ok a.
Proof. intros p a H. now apply be_roundtrip. Qed.
Lemma claim_C49_from_bytes : forall (p : positive) (bs : list Z), Forall byte bs ->
  @from_binary_be p bs = if Nat.eqb (num_bytes p) (8 * num_limbs p) then Ok (num (be_val bs)) else Panic.
Proof. intros p bs H. now apply from_binary_be_ok. Qed.
Lemma claim_C49_panics : forall (p : positive) (a : Num p), Nat.eqb (num_bytes p) (8 * num_limbs p) = false ->
  into_binary_be a = Panic /\ into_biguint a = Panic.
Proof. intros p a H. rewrite into_binary_be_ok, into_biguint_ok. unfold full_bytes. now rewrite H. Qed.
Lemma claim_C49_other : forall (p q : positive) (a : Num p),
  let ok := Nat.eqb (num_bytes p) (8 * num_limbs p) && Nat.eqb (num_bytes q) (8 * num_limbs q) in
  into_other q a = (if ok then Ok (num (nval a)) else Panic) /\
  @from_other q p a = (if ok then Ok (num (nval a)) else Panic).
Proof. intros p q a. split; [apply into_other_ok|apply from_other_ok]. Qed.

(* C50 *)
Lemma claim_C50_iterators : forall (p : positive) (a : Num p),
  let bits := map (fun i => Z.testbit (nval a) (Z.of_nat i)) (seq 0 (64 * num_limbs p)) in
  bititer_collect (S (64 * num_limbs p)) (bititer_new (into_repr a)) = Ok bits /\
  bititer_be (into_repr a) = rev bits /\ length bits = (64 * num_limbs p)%nat /\
  fold_right (fun b z => Z.b2z b + 2 * z) 0 bits = nval a.
Proof.
  intros p a bits. split; [apply iterbit_le_collect|]. split.
  - unfold into_repr. rewrite bititer_be_limbs by apply nval_range. reflexivity.
  - split; [unfold bits; now rewrite map_length, seq_length|]. rewrite <- (bval_iterbit a). change (iterbit_le a) with bits. clearbody bits. induction bits as [|b bs IH]; cbn [fold_right bval]; [reflexivity|]. now rewrite IH.
Qed.

(** Cases: the four fields of the library, and a field where the sizes differ. *)
Lemma case_C46_big : Forall (fun p => Nat.eqb (num_bytes p) (8 * num_limbs p) = true /\ 2 ^ 65 < Zpos p) [bn_r; bn_l; bls_r; bls_l] /\
  Nat.eqb (num_bytes 101) (8 * num_limbs 101) = false.
Proof. split; [repeat constructor|reflexivity]. Qed.
Lemma case_C46_signed : exists a : Num bn_r, from_i32 true (-5) = Ok a /\ nval a = Zpos bn_r - 5.
Proof. eexists. split; [apply from_i32_ok; [lia|vm_compute; reflexivity]|vm_compute; reflexivity]. Qed.
Lemma case_C46_unsigned : @from_u64 101 100 <> Panic /\ @from_u64 101 101 = Panic.
Proof. split; [rewrite (proj1 (proj1 (claim_C46_unsigned 101 100 ltac:(lia)) ltac:(lia))); discriminate|reflexivity]. Qed.
Lemma case_C46_into_u64 : into_u64 (num (2 ^ 64 - 1) : Num bn_r) = Ok (2 ^ 64 - 1) /\ into_u64 (num (2 ^ 64) : Num bn_r) = Panic.
Proof. split; vm_compute; reflexivity. Qed.
Lemma case_C46_str : exists a : Num 101, from_str [49; 48; 53] = Ok a /\ nval a = 4.
Proof. eexists. split; [apply claim_C46_str; [repeat constructor; lia|discriminate|right; discriminate]|vm_compute; reflexivity]. Qed.
Lemma case_C47_exact : @borsh_de 101 [101; 0; 0; 0; 0; 0; 0; 0] = None /\ @borsh_de 101 [1; 0; 0] = None /\
  borsh_ser (num 100 : Num 101) = [100; 0; 0; 0; 0; 0; 0; 0].
Proof. repeat split; vm_compute; reflexivity. Qed.
Lemma case_C48_digits : exists a : Num bn_l, num_deserialize [48; 49; 50] = Ok (Some a) /\ nval a = 12.
Proof.
  eexists. split; [apply (claim_C48_digits bn_l [48; 49; 50]); [reflexivity|reflexivity|repeat constructor; lia|discriminate]|vm_compute; reflexivity].
Qed.
Lemma case_C49_roundtrip : exists bs, into_binary_be (num 258 : Num bn_r) = Ok bs /\ bs = repeat 0 30 ++ [1; 2].
Proof. eexists. split; [|reflexivity]. vm_compute. reflexivity. Qed.
Lemma case_C50_iterators : firstn 4 (iterbit_le (num 5 : Num 101)) = [true; false; true; false] /\ length (iterbit_le (num 5 : Num 101)) = 64%nat.
Proof. split; vm_compute; reflexivity. Qed.
