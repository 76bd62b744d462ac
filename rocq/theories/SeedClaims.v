(** Claims about the seedbox and the Poseidon parameters: C59, C60. *)

From Verif Require Export Seedbox CodecSpec SeedSpec PoseidonSpec Curves CurveBN CurveBLS.
From Coq Require Import Lia.
Open Scope Z_scope.

(* C59 *)
(** The [k]-th word is little-endian word [k mod 8] of the hash of the block number
    [k / 8] (8 bytes, little endian) followed by the salt, here the hash of the
    caller's salt. Without overflow checks the block number wraps at 2^64, which is
    what [le_bytes 8] does. *)
Lemma claim_C59_stream : forall (chk : bool) (n : nat), (chk = true -> Z.of_nat n <= 8 * (2 ^ 64 - 1)) ->
  let word (salt : list Z) (k : nat) :=
    le_val (firstn 4 (skipn (4 * Nat.modulo k 8) (blake2s 32 PERSONALIZATION (le_bytes 8 (Z.of_nat k / 8) ++ salt)))) in
  (exists s, draw32 chk n sb_new = Ok (map (word []) (seq 0 n), s)) /\
  (forall salt : list Z, exists s0 s, sb_new_with_salt salt = Ok s0 /\
     draw32 chk n s0 = Ok (map (word (blake2s 32 [] salt)) (seq 0 n), s)).
Proof.
  intros chk n Hn word.
  assert (W : forall salt k, sb_word salt (0 + Z.of_nat k) = word (match salt with Some x => x | None => [] end) k).
  { intros salt k. unfold sb_word, word, sb_block. rewrite Z.add_0_l. do 3 f_equal.
    rewrite <- (Nat2Z.id (Nat.modulo k 8)), Nat2Z.inj_mod. reflexivity. }
  split.
  - destruct (draw32_at chk None n 0 sb_new sb_at_new) as [s [E _]]; [intros C; specialize (Hn C); lia|].
    exists s. rewrite E. do 2 f_equal. apply map_ext. intros k. apply W.
  - intros salt. destruct (sb_at_salt salt) as [s0 [E0 A0]].
    destruct (draw32_at chk _ n 0 s0 A0) as [s [E _]]; [intros C; specialize (Hn C); lia|].
    exists s0, s. split; [exact E0|]. rewrite E. do 2 f_equal. apply map_ext. intros k. apply W.
Qed.
Lemma claim_C59_words : forall (chk : bool) (n : nat) (s0 : Seedbox) (ws : list Z) (s : Seedbox),
  s0 = sb_new \/ (exists salt, sb_new_with_salt salt = Ok s0) -> (chk = true -> Z.of_nat n <= 8 * (2 ^ 64 - 1)) ->
  draw32 chk n s0 = Ok (ws, s) -> length ws = n /\ Forall (fun w => 0 <= w < 2 ^ 32) ws.
Proof.
  intros chk n s0 ws s H Hn E.
  assert (A : exists salt, sb_at salt 0 s0).
  { destruct H as [->|[salt H]]; [eexists; apply sb_at_new|].
    destruct (sb_at_salt salt) as [s1 [E1 A1]]. rewrite H in E1. assert (s1 = s0) as -> by congruence. eauto. }
  destruct A as [salt A]. destruct (draw32_at chk salt n 0 s0 A) as [s' [E' _]]; [intros C; specialize (Hn C); lia|].
  rewrite E in E'. assert (ws = map (fun i : nat => sb_word salt (0 + Z.of_nat i)) (seq 0 n)) as -> by congruence.
  rewrite map_length, seq_length. split; [reflexivity|]. rewrite Forall_map. apply Forall_forall. intros k _.
  unfold sb_word. set (j := Z.to_nat ((0 + Z.of_nat k) mod 8)). set (B := sb_block salt ((0 + Z.of_nat k) / 8)).
  assert (HB : Forall byte (firstn 4 (skipn (4 * j) B))).
  { assert (G : Forall byte B) by apply blake_bytes.
    rewrite <- (firstn_skipn (4 * j) B) in G. apply Forall_app in G. destruct G as [_ G].
    rewrite <- (firstn_skipn 4 (skipn (4 * j) B)) in G. apply Forall_app in G. apply G. }
  assert (HL : length (firstn 4 (skipn (4 * j) B)) = 4%nat).
  { rewrite firstn_length, skipn_length. unfold B, sb_block. rewrite blake_len by lia.
    pose proof (Z.mod_pos_bound (0 + Z.of_nat k) 8 ltac:(lia)). lia. }
  pose proof (le_val_range _ HB) as X. rewrite HL in X. exact X.
Qed.
(** Where the block counter overflows, a build with overflow checks panics. *)
Lemma claim_C59_overflow : forall (n : nat) (ws : list Z) (s : Seedbox), Z.of_nat n = 8 * (2 ^ 64 - 1) ->
  draw32 true n sb_new = Ok (ws, s) -> next_u32 true s = Panic.
Proof.
  intros n ws s Hn E. destruct (draw32_at true None n 0 sb_new sb_at_new) as [s' [E' A]]; [lia|].
  rewrite E in E'. assert (s' = s) as <- by congruence. rewrite Hn, Z.add_0_l in A. eapply next_u32_overflow; eauto.
Qed.
(** Grouping of the draws does not matter. *)
Lemma claim_C59_grouping : forall (chk : bool) (n m : nat) (s : Seedbox),
  draw32 chk (n + m) s = (a <-? draw32 chk n s ; b <-? draw32 chk m (snd a) ; Ok (fst a ++ fst b, snd b)) /\
  draw64 chk n s = (d <-? draw32 chk (2 * n) s ;
    Ok (map (fun i => nth (2 * i) (fst d) 0 * 2 ^ 32 + nth (2 * i + 1) (fst d) 0) (seq 0 n), snd d)).
Proof.
  intros chk n m s. split; [apply draw32_app|]. revert s. induction n as [|n IH]; intros s; [reflexivity|].
  replace (2 * S n)%nat with (S (S (2 * n))) by lia. cbn [draw64 draw32]. unfold next_u64.
  destruct (next_u32 chk s) as [[a s1]|]; cbn [rbind fst snd]; auto.
  destruct (next_u32 chk s1) as [[b s2]|]; cbn [rbind fst snd]; auto.
  rewrite IH. destruct (draw32 chk (2 * n) s2) as [[l s3]|]; cbn [rbind fst snd]; auto.
  f_equal. f_equal. cbn [seq map]. f_equal. rewrite <- seq_shift, map_map. apply map_ext. intros i.
  replace (2 * S i)%nat with (S (S (2 * i))) by lia. reflexivity.
Qed.
Lemma case_C59_stream : exists a l, rmap fst (draw32 true 9 sb_new) = Ok (a :: l) /\ length l = 8%nat /\ nth 7 l 0 <> a.
Proof. vm_compute. do 2 eexists. split; [reflexivity|]. split; [reflexivity|]. discriminate. Qed.
(** RFC 7693, appendix B: BLAKE2s-256 of "abc". *)
Lemma case_C59_hash : blake2s 32 [] [97; 98; 99] =
  [0x50; 0x8C; 0x5E; 0x8C; 0x32; 0x7C; 0x14; 0xE2; 0xE1; 0xA7; 0x2B; 0xA3; 0x4E; 0xEB; 0x45; 0x2F;
   0x37; 0x45; 0x8B; 0x20; 0x9E; 0xD6; 0x3A; 0x29; 0x4D; 0x99; 0x9B; 0x4C; 0x86; 0x67; 0x59; 0x82].
Proof. vm_compute. reflexivity. Qed.

(* C60 *)
Lemma claim_C60_dimensions : forall (p : positive) (fuel : nat) (chk : bool) (t f q : nat) (P : @PoseidonParams p),
  (chk = true -> 2 * Z.of_nat (num_limbs p) * Z.of_nat ((f + q + t * t) * fuel) <= 8 * (2 ^ 64 - 1)) ->
  pp_new fuel chk t f q = Ok (Some P) ->
  ppt P = t /\ ppf P = f /\ ppp P = q /\ length (ppc P) = (f + q)%nat /\ length (ppm P) = t /\
  Forall (fun row => length row = t) (ppm P) /\ Forall (fun x => 0 <= nval x < Zpos p) (ppc P ++ concat (ppm P)).
Proof.
  intros p fuel chk t f q P R E. destruct (pp_new_at (p := p) fuel chk t f q R) as [N|[P' [n [E' [_ [T1 [T2 [T3 [L1 [L2 [L3 _]]]]]]]]]]].
  - rewrite E in N. discriminate.
  - rewrite E in E'. assert (P' = P) as -> by congruence. repeat split; auto. apply Forall_forall. intros x _. apply nval_range.
Qed.
(** No panic: the only thing that can happen is that the draws go on. *)
Lemma claim_C60_no_panic : forall (p : positive) (fuel : nat) (chk : bool) (t f q : nat),
  (chk = true -> 2 * Z.of_nat (num_limbs p) * Z.of_nat ((f + q + t * t) * fuel) <= 8 * (2 ^ 64 - 1)) ->
  @pp_new p fuel chk t f q <> Panic.
Proof.
  intros p fuel chk t f q R. destruct (pp_new_at (p := p) fuel chk t f q R) as [N|[P' [n [E' _]]]]; congruence.
Qed.
(** The values: consecutive groups of words of the stream, two words per limb and
    limbs from the lowest, cut to the bit length of the modulus; those below the
    modulus are kept, as Montgomery representations. Constants come first, then the
    matrix, row by row. *)
Lemma claim_C60_values : forall (p : positive) (fuel : nat) (chk : bool) (t f q : nat) (P : @PoseidonParams p),
  (chk = true -> 2 * Z.of_nat (num_limbs p) * Z.of_nat ((f + q + t * t) * fuel) <= 8 * (2 ^ 64 - 1)) ->
  pp_new fuel chk t f q = Ok (Some P) ->
  let salt := Some (blake2s 32 [] (pp_salt t f q)) in
  let limb j i := let k := 2 * (Z.of_nat (num_limbs p) * Z.of_nat j + Z.of_nat i) in sb_word salt k * 2 ^ 32 + sb_word salt (k + 1) in
  let cand j := repr_val (map (limb j) (seq 0 (num_limbs p))) mod 2 ^ Z.of_nat (num_bits p) in
  exists n, ppc P ++ concat (ppm P) =
    map (fun j => fdiv (num (cand j)) (num (2 ^ (64 * Z.of_nat (num_limbs p))))) (filter (fun j => cand j <? Zpos p) (seq 0 n)).
Proof.
  intros p fuel chk t f q P R E salt limb cand. destruct (pp_new_at (p := p) fuel chk t f q R) as [N|[P' [n [E' [_ [_ [_ [_ [_ [_ [_ K]]]]]]]]]]].
  - rewrite E in N. discriminate.
  - rewrite E in E'. assert (P' = P) as -> by congruence. exists n. rewrite <- K. fold salt.
    assert (C : forall j, candidate (p := p) salt j = cand j).
    { intros j. unfold candidate, cand, shave.
      rewrite (map_ext (fun i : nat => sb_limb64 salt (2 * Z.of_nat (num_limbs p) * Z.of_nat j + 2 * Z.of_nat i)) (limb j)); [reflexivity|].
      intros i. unfold sb_limb64, limb. cbv zeta.
      replace (2 * Z.of_nat (num_limbs p) * Z.of_nat j + 2 * Z.of_nat i) with (2 * (Z.of_nat (num_limbs p) * Z.of_nat j + Z.of_nat i)) by lia. reflexivity. }
    unfold kept_nums. rewrite (filter_ext (kept (p := p) salt) (fun j => cand j <? Zpos p)); [|intros j; unfold kept; now rewrite C].
    apply map_ext. intros j. unfold of_mont. now rewrite C.
Qed.
(** Deterministic: how long one is prepared to wait does not change the result. *)
Lemma claim_C60_deterministic : forall (p : positive) (fuel fuel' : nat) (chk : bool) (t f q : nat) (P P' : @PoseidonParams p),
  pp_new fuel chk t f q = Ok (Some P) -> pp_new fuel' chk t f q = Ok (Some P') -> P = P'.
Proof.
  intros p. 
  assert (G : forall chk fuel fuel' s (x : Num p * Seedbox), (fuel <= fuel')%nat -> gen_num fuel chk s = Ok (Some x) -> gen_num fuel' chk s = Ok (Some x)).
  { intros chk. induction fuel as [|fuel IH]; intros fuel' s x L E; cbn [gen_num] in E; [discriminate|].
    destruct fuel' as [|fuel']; [lia|]. cbn [gen_num]. destruct draw64 as [d|]; cbn [rbind] in *; [|discriminate].
    destruct (_ <? _); [exact E|]. apply IH; [lia|exact E]. }
  assert (GN : forall chk fuel fuel', (fuel <= fuel')%nat -> forall k s (x : list (Num p) * Seedbox), gen_nums k fuel chk s = Ok (Some x) -> gen_nums k fuel' chk s = Ok (Some x)).
  { intros chk fuel fuel' L. induction k as [|k IH]; intros s x E; cbn [gen_nums] in *; [exact E|].
    destruct (gen_num fuel chk s) as [[[a s1]|]|] eqn:E1; cbn [rbind] in E; [|discriminate|discriminate].
    rewrite (G _ _ _ _ _ L E1). cbn [rbind]. destruct (gen_nums k fuel chk s1) as [[y|]|] eqn:E2; cbn [rbind option_map] in E; [|discriminate|discriminate].
    rewrite (IH _ _ E2). exact E. }
  assert (GR : forall chk fuel fuel', (fuel <= fuel')%nat -> forall r k s (x : list (list (Num p)) * Seedbox), gen_rows r k fuel chk s = Ok (Some x) -> gen_rows r k fuel' chk s = Ok (Some x)).
  { intros chk fuel fuel' L. induction r as [|r IH]; intros k s x E; cbn [gen_rows] in *; [exact E|].
    destruct (gen_nums k fuel chk s) as [[[a s1]|]|] eqn:E1; cbn [rbind] in E; [|discriminate|discriminate].
    rewrite (GN _ _ _ L _ _ _ E1). cbn [rbind]. destruct (gen_rows r k fuel chk s1) as [[y|]|] eqn:E2; cbn [rbind option_map] in E; [|discriminate|discriminate].
    rewrite (IH _ _ _ E2). exact E. }
  assert (M : forall fuel fuel' chk t f q (P : @PoseidonParams p), (fuel <= fuel')%nat -> pp_new fuel chk t f q = Ok (Some P) -> pp_new fuel' chk t f q = Ok (Some P)).
  { intros fuel fuel' chk t f q P L. unfold pp_new. destruct sb_new_with_salt as [s|]; cbn [rbind]; [|discriminate].
    destruct (gen_nums (f + q) fuel chk s) as [[[c s1]|]|] eqn:E1; cbn [rbind]; [|discriminate|discriminate].
    rewrite (GN _ _ _ L _ _ _ E1). cbn [rbind]. destruct (gen_rows t t fuel chk s1) as [[y|]|] eqn:E2; cbn [rbind option_map]; [|discriminate|discriminate].
    rewrite (GR _ _ _ L _ _ _ _ E2). cbn [rbind option_map]. auto. }
  intros fuel fuel' chk t f q P P' E E'. destruct (Nat.le_ge_cases fuel fuel') as [L|L].
  - apply (M _ fuel') in E; auto. congruence.
  - apply (M _ fuel) in E'; auto. congruence.
Qed.
(** Hashing with the parameters never panics on 1 to [t] inputs. *)
Lemma claim_C60_hash_defined : forall (p : positive) (fuel : nat) (chk : bool) (t f q : nat) (P : @PoseidonParams p) (ins : list (Num p)),
  (chk = true -> 2 * Z.of_nat (num_limbs p) * Z.of_nat ((f + q + t * t) * fuel) <= 8 * (2 ^ 64 - 1)) ->
  pp_new fuel chk t f q = Ok (Some P) -> (0 < length ins <= t)%nat -> exists h, poseidon P ins = Ok h.
Proof.
  intros p fuel chk t f q P ins R E L. destruct (claim_C60_dimensions p fuel chk t f q P R E) as [T1 [T2 [T3 [L1 [L2 [L3 _]]]]]].
  apply poseidon_ok; [|lia]. split; [lia|]. split; [lia|]. now rewrite T1.
Qed.
(** The parameter sets used in the repository: the draws end, and no matrix has a
    zero in its first column (the condition of the constraint counts). *)
Lemma claim_C60_library_parameters : forall tfq, In tfq [(4, 8, 54); (3, 8, 53); (2, 8, 53)]%nat -> exists P : @PoseidonParams bn_r,
  pp_new 64 true (fst (fst tfq)) (snd (fst tfq)) (snd tfq) = Ok (Some P) /\
  length (ppc P) = (snd (fst tfq) + snd tfq)%nat /\ length (ppm P) = fst (fst tfq) /\ Forall (fun row => length row = fst (fst tfq)) (ppm P) /\
  Forall (fun row => nth 0 row n0 <> n0) (ppm P).
Proof.
  assert (G : forall t f q, 8 * Z.of_nat ((f + q + t * t) * 64) <= 8 * (2 ^ 64 - 1) -> raw_check (p := bn_r) 64 t f q = true -> exists P : @PoseidonParams bn_r,
    pp_new 64 true t f q = Ok (Some P) /\ length (ppc P) = (f + q)%nat /\ length (ppm P) = t /\ Forall (fun row => length row = t) (ppm P) /\
    Forall (fun row => nth 0 row n0 <> n0) (ppm P)).
  { intros t f q R C. destruct (raw_check_ok bn_r_prime 64 t f q ltac:(reflexivity) C) as [P [E Z0]]. exists P.
    destruct (claim_C60_dimensions bn_r 64 true t f q P (fun _ => R) E) as [_ [_ [_ [L1 [L2 [L3 _]]]]]]. auto. }
  intros tfq [<-|[<-|[<-|[]]]]; apply G.
  - vm_compute; discriminate.
  - vm_compute; reflexivity.
  - vm_compute; discriminate.
  - vm_compute; reflexivity.
  - vm_compute; discriminate.
  - vm_compute; reflexivity.
Qed.
Lemma case_C60_dimensions : exists P : @PoseidonParams 13, pp_new 64 true 2 1 1 = Ok (Some P) /\
  map (fun row => map nval row) (ppm P) <> [] /\ length (ppc P) = 2%nat.
Proof. vm_compute. eexists. split; [reflexivity|]. split; [discriminate|reflexivity]. Qed.
