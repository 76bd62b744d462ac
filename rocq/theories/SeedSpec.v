(** Lemmas about the seedbox stream and the parameters drawn from it. *)

From Verif Require Import Seedbox PoseidonSpec.
From Coq Require Import Lia.
Open Scope Z_scope.

Lemma bset_nth_len i x l : length (Blake2s.set_nth i x l) = length l.
Proof. revert i; induction l as [|y l IH]; intros [|i]; cbn; auto. Qed.
Lemma blake_f_len h b t e : length (blake_f h b t e) = 8%nat.
Proof. unfold blake_f. now rewrite map_length, seq_length. Qed.
Lemma blake_blocks_len : forall fuel h t m, length h = 8%nat -> length (blake_blocks fuel h t m) = 8%nat.
Proof.
  induction fuel as [|fuel IH]; intros h t m H; cbn [blake_blocks]; auto.
  destruct Nat.leb; [apply blake_f_len|]. apply IH, blake_f_len.
Qed.
Lemma le_bytes_len n z : length (le_bytes n z) = n.
Proof. unfold le_bytes. now rewrite map_length, seq_length. Qed.
Lemma concat_len (l : list Z) : length (concat (map (le_bytes 4) l)) = (4 * length l)%nat.
Proof. induction l as [|x l IH]; cbn [map concat length]; auto. rewrite app_length, IH, le_bytes_len. lia. Qed.
Lemma blake_len nn person msg : (nn <= 32)%nat -> length (blake2s nn person msg) = nn.
Proof.
  intros H. unfold blake2s. rewrite firstn_length, concat_len, blake_blocks_len; [lia|].
  unfold xor_at. now rewrite !bset_nth_len.
Qed.
Lemma blake_bytes nn person msg : Forall byte (blake2s nn person msg).
Proof.
  unfold blake2s. generalize (blake_blocks (S (length msg / 64)) (xor_at 7 (le_val (firstn 4 (skipn 4 person)))
    (xor_at 6 (le_val (firstn 4 person)) (xor_at 0 (Z.lxor 16842752 (Z.of_nat nn)) blake_iv))) 0 msg). intros h.
  assert (G : Forall byte (concat (map (le_bytes 4) h))).
  { apply Forall_concat. rewrite Forall_map. apply Forall_forall. intros z _. unfold le_bytes. rewrite Forall_map.
    apply Forall_forall. intros i _. apply Z.mod_pos_bound. lia. }
  rewrite <- (firstn_skipn nn (concat (map (le_bytes 4) h))) in G. apply Forall_app in G. apply G.
Qed.
Lemma copy32_blake person msg : copy32 (blake2s 32 person msg) = Ok (blake2s 32 person msg).
Proof. unfold copy32. rewrite blake_len by lia. reflexivity. Qed.

(** Word [k] of the stream. *)
Definition sb_block (salt : option (list Z)) (j : Z) : list Z :=
  blake2s 32 PERSONALIZATION (le_bytes 8 j ++ match salt with Some x => x | None => [] end).
Definition sb_word (salt : option (list Z)) (k : Z) : Z :=
  le_val (firstn 4 (skipn (4 * Z.to_nat (k mod 8)) (sb_block salt (k / 8)))).

(** [s] has produced [k] words. *)
Definition sb_at (salt : option (list Z)) (k : Z) (s : Seedbox) : Prop :=
  sb_salt s = salt /\ 0 <= k /\ sb_iter s = ((k + 7) / 8) mod 2 ^ 64 /\ length (sb_buff s) = 32%nat /\
  ((k mod 8 = 0 /\ sb_limb s = 8%nat) \/
   (k mod 8 <> 0 /\ sb_limb s = Z.to_nat (k mod 8) /\ sb_buff s = sb_block salt (k / 8))).

Lemma sb_at_new : sb_at None 0 sb_new.
Proof. repeat split; auto; cbn; try lia. Qed.
Lemma sb_at_salt salt : exists s, sb_new_with_salt salt = Ok s /\ sb_at (Some (blake2s 32 [] salt)) 0 s.
Proof.
  unfold sb_new_with_salt. rewrite copy32_blake. cbn [rbind]. eexists; split; [reflexivity|].
  repeat split; auto; cbn; try lia.
Qed.

Lemma le_bytes_mod n z : le_bytes n (z mod 2 ^ (8 * Z.of_nat n)) = le_bytes n z.
Proof.
  unfold le_bytes. apply map_ext_in. intros i Hi. apply in_seq in Hi.
  set (P := 2 ^ (8 * Z.of_nat i)).
  assert (E : 2 ^ (8 * Z.of_nat n) = P * (256 * 2 ^ (8 * Z.of_nat (n - i - 1)))).
  { unfold P. change 256 with (2 ^ 8). rewrite <- !Z.pow_add_r by lia. f_equal. lia. }
  assert (HP : 0 < P) by (apply Z.pow_pos_nonneg; lia).
  assert (HK : 0 < 2 ^ (8 * Z.of_nat (n - i - 1))) by (apply Z.pow_pos_nonneg; lia).
  rewrite E. set (K := 2 ^ (8 * Z.of_nat (n - i - 1))) in *.
  rewrite Z.rem_mul_r by lia. rewrite Z.mul_comm, Z.div_add by lia.
  rewrite (Z.div_small (z mod P)) by (apply Z.mod_pos_bound; lia). cbn [Z.add].
  rewrite Z.rem_mul_r by lia. rewrite Z.mul_comm, Z.mod_add by lia. apply Z.mod_mod. lia.
Qed.

Lemma next_u32_at chk salt k s : sb_at salt k s -> (chk = true -> k < 8 * (2 ^ 64 - 1)) ->
  exists s', next_u32 chk s = Ok (sb_word salt k, s') /\ sb_at salt (k + 1) s'.
Proof.
  intros [E1 [E2 [E3 [E4 E5]]]] HK. unfold next_u32.
  assert (KM : 0 <= k mod 8 < 8) by (apply Z.mod_pos_bound; lia).
  pose proof (Z.div_mod k 8 ltac:(lia)) as DM.
  destruct E5 as [[M L]|[M [L B]]].
  - rewrite L, Nat.eqb_refl.
    assert (Q : (k + 7) / 8 = k / 8). { symmetry. apply (Z.div_unique (k + 7) 8 _ 7); lia. }
    assert (S1 : (k + 1 + 7) / 8 = k / 8 + 1). { symmetry. apply (Z.div_unique _ 8 _ 0); lia. }
    assert (Qp : 0 <= k / 8) by (apply Z.div_pos; lia).
    assert (U : u64_succ chk (sb_iter s) = Ok ((k / 8 + 1) mod 2 ^ 64)).
    { unfold u64_succ. rewrite E3, Q. pose proof (Z.mod_pos_bound (k / 8) (2 ^ 64) ltac:(lia)) as R.
      destruct (Z.ltb_spec (k / 8 mod 2 ^ 64 + 1) (2 ^ 64)) as [C|C].
      - f_equal. rewrite Z.add_mod by lia. rewrite (Z.mod_small 1) by lia. rewrite (Z.mod_small (k / 8 mod 2 ^ 64 + 1)); lia.
      - assert (k / 8 mod 2 ^ 64 = 2 ^ 64 - 1) as X by lia. destruct chk.
        + specialize (HK eq_refl). assert (k / 8 < 2 ^ 64 - 1) by lia. rewrite Z.mod_small in X by lia. lia.
        + f_equal. rewrite Z.add_mod by lia. rewrite X. reflexivity. }
    rewrite U. cbn [rbind].
    assert (LB : le_bytes 8 (sb_iter s) = le_bytes 8 (k / 8)). { rewrite E3, Q. apply (le_bytes_mod 8). }
    rewrite LB, copy32_blake. cbn [rbind sb_limb sb_buff sb_salt sb_iter].
    rewrite (blake_len 32) by lia. cbn [Nat.leb Nat.add Nat.mul rassert rbind].
    eexists; split.
    + f_equal. f_equal. unfold sb_word. rewrite M. unfold sb_block. rewrite E1. reflexivity.
    + split; [exact E1|]. split; [lia|]. cbn [sb_iter sb_buff sb_limb]. rewrite S1. split; [reflexivity|].
      split; [now apply blake_len|]. right.
      assert (D1 : (k + 1) / 8 = k / 8). { symmetry. apply (Z.div_unique _ 8 _ 1); lia. }
      assert (M1 : (k + 1) mod 8 = 1). { symmetry. apply (Z.mod_unique _ 8 (k / 8) 1); lia. }
      rewrite D1, M1. split; [lia|]. split; [reflexivity|]. unfold sb_block. now rewrite E1.
  - assert (LN : Nat.eqb (sb_limb s) 8 = false). { apply Nat.eqb_neq. lia. }
    rewrite LN. cbn [rbind]. rewrite E4.
    assert (LE : Nat.leb ((sb_limb s + 1) * 4) 32 = true). { apply Nat.leb_le. lia. }
    rewrite LE. cbn [rassert rbind]. eexists; split.
    + f_equal. f_equal. unfold sb_word. rewrite L, B. rewrite (Nat.mul_comm 4). reflexivity.
    + split; [exact E1|]. split; [lia|]. cbn [sb_iter sb_buff sb_limb]. split.
      { rewrite E3. f_equal. assert ((k + 7) / 8 = k / 8 + 1) as ->. { symmetry. apply (Z.div_unique _ 8 _ (k mod 8 - 1)); lia. }
        apply (Z.div_unique _ 8 _ (k mod 8)); lia. }
      split; [exact E4|]. destruct (Z.eq_dec (k mod 8) 7) as [C|C].
      * left. split; [|lia]. symmetry. apply (Z.mod_unique _ 8 (k / 8 + 1) 0); lia.
      * right. assert (M1 : (k + 1) mod 8 = k mod 8 + 1). { symmetry. apply (Z.mod_unique _ 8 (k / 8) _); lia. }
        assert (D1 : (k + 1) / 8 = k / 8). { symmetry. apply (Z.div_unique _ 8 _ (k mod 8 + 1)); lia. }
        rewrite M1, D1. split; [lia|]. split; [lia|exact B].
Qed.
Lemma next_u32_overflow salt s : sb_at salt (8 * (2 ^ 64 - 1)) s -> next_u32 true s = Panic.
Proof.
  intros [E1 [E2 [E3 [E4 E5]]]].
  assert (M : (8 * (2 ^ 64 - 1)) mod 8 = 0) by reflexivity. rewrite M in E5.
  destruct E5 as [[_ L]|[X _]]; [|congruence]. unfold next_u32. rewrite L, Nat.eqb_refl, E3. reflexivity.
Qed.

Lemma draw32_at chk salt : forall n k s, sb_at salt k s -> (chk = true -> k + Z.of_nat n <= 8 * (2 ^ 64 - 1)) ->
  exists s', draw32 chk n s = Ok (map (fun i => sb_word salt (k + Z.of_nat i)) (seq 0 n), s') /\ sb_at salt (k + Z.of_nat n) s'.
Proof.
  induction n as [|n IH]; intros k s A HK; cbn [draw32].
  - exists s. split; [reflexivity|]. now rewrite Z.add_0_r.
  - destruct (next_u32_at chk salt k s A) as [s1 [E1 A1]]; [intros; specialize (HK H); lia|].
    rewrite E1. cbn [rbind fst snd].
    destruct (IH (k + 1) s1 A1) as [s2 [E2 A2]]; [intros; specialize (HK H); lia|].
    rewrite E2. cbn [rbind fst snd]. exists s2. split.
    + f_equal. f_equal. cbn [seq map]. f_equal; [f_equal; lia|]. rewrite <- seq_shift, map_map. apply map_ext. intros i. f_equal. lia.
    + replace (k + Z.of_nat (S n)) with (k + 1 + Z.of_nat n) by lia. exact A2.
Qed.
Lemma draw32_app chk n : forall m s, draw32 chk (n + m) s = (a <-? draw32 chk n s ; b <-? draw32 chk m (snd a) ; Ok (fst a ++ fst b, snd b)).
Proof.
  induction n as [|n IH]; intros m s; cbn [draw32 Nat.add].
  - cbn [rbind fst snd app]. destruct (draw32 chk m s) as [[a b]|]; reflexivity.
  - destruct (next_u32 chk s) as [[a s1]|]; cbn [rbind fst snd]; auto. rewrite IH.
    destruct (draw32 chk n s1) as [[b s2]|]; cbn [rbind fst snd]; auto.
    destruct (draw32 chk m s2) as [[c s3]|]; cbn [rbind fst snd app]; auto.
Qed.

(** Limb [i] drawn from position [k]. *)
Definition sb_limb64 (salt : option (list Z)) (k : Z) : Z := sb_word salt k * 2 ^ 32 + sb_word salt (k + 1).
Lemma draw64_at chk salt : forall n k s, sb_at salt k s -> (chk = true -> k + 2 * Z.of_nat n <= 8 * (2 ^ 64 - 1)) ->
  exists s', draw64 chk n s = Ok (map (fun i => sb_limb64 salt (k + 2 * Z.of_nat i)) (seq 0 n), s') /\ sb_at salt (k + 2 * Z.of_nat n) s'.
Proof.
  induction n as [|n IH]; intros k s A HK; cbn [draw64].
  - exists s. split; [reflexivity|]. now rewrite Z.add_0_r.
  - destruct (next_u32_at chk salt k s A) as [s1 [E1 A1]]; [intros; specialize (HK H); lia|].
    destruct (next_u32_at chk salt (k + 1) s1 A1) as [s2 [E2 A2]]; [intros; specialize (HK H); lia|].
    unfold next_u64. rewrite E1. cbn [rbind fst snd]. rewrite E2. cbn [rbind fst snd].
    replace (k + 1 + 1) with (k + 2) in A2 by lia.
    destruct (IH (k + 2) s2 A2) as [s3 [E3 A3]]; [intros; specialize (HK H); lia|].
    rewrite E3. cbn [rbind fst snd]. exists s3. split.
    + f_equal. f_equal. cbn [seq map]. f_equal; [unfold sb_limb64; f_equal; [f_equal|]; f_equal; lia|].
      rewrite <- seq_shift, map_map. apply map_ext. intros i. f_equal. lia.
    + replace (k + 2 * Z.of_nat (S n)) with (k + 2 + 2 * Z.of_nat n) by lia. exact A3.
Qed.

Section Gen.
Context {p : positive}.
Notation F := (Num p).
Notation L := (Z.of_nat (num_limbs p)).

(** Candidate [j]: the integer read from words [2 L j .. 2 L (j+1) - 1], and whether it is kept. *)
Definition candidate (salt : option (list Z)) (j : nat) : Z :=
  shave (p := p) (repr_val (map (fun i => sb_limb64 salt (2 * L * Z.of_nat j + 2 * Z.of_nat i)) (seq 0 (num_limbs p)))).
Definition kept (salt : option (list Z)) (j : nat) : bool := candidate salt j <? Zpos p.
(** The kept candidates among [j .. j+n-1], as field elements. *)
Definition kept_nums (salt : option (list Z)) (j n : nat) : list F :=
  map (fun i => of_mont (candidate salt i)) (filter (kept salt) (seq j n)).

Lemma kept_nums_app salt j n m : kept_nums salt j (n + m) = kept_nums salt j n ++ kept_nums salt (j + n) m.
Proof. unfold kept_nums. rewrite seq_app, filter_app, map_app. reflexivity. Qed.

(** Enough words are left for [n] more candidates (only matters with overflow checks). *)
Definition room (chk : bool) (j : nat) : Prop := chk = true -> 2 * L * Z.of_nat j <= 8 * (2 ^ 64 - 1).

Lemma gen_num_at chk salt : forall fuel j s, sb_at salt (2 * L * Z.of_nat j) s -> room chk (j + fuel) ->
  (gen_num (p := p) fuel chk s = Ok None /\ kept_nums salt j fuel = []) \/
  exists n x s', gen_num (p := p) fuel chk s = Ok (Some (x, s')) /\ (n <= fuel)%nat /\ sb_at salt (2 * L * Z.of_nat (j + n)) s' /\ kept_nums salt j n = [x].
Proof.
  induction fuel as [|fuel IH]; intros j s A R; cbn [gen_num]; [left; auto|].
  destruct (draw64_at chk salt (num_limbs p) _ s A) as [s1 [E1 A1]].
  { intros C. specialize (R C). nia. }
  rewrite E1. cbn [rbind fst snd]. fold (candidate salt j). fold (kept salt j).
  replace (2 * L * Z.of_nat j + 2 * L) with (2 * L * Z.of_nat (S j)) in A1 by lia.
  assert (KN : forall n, kept_nums salt j (S n) = (if kept salt j then [of_mont (candidate salt j)] else []) ++ kept_nums salt (S j) n).
  { intros n. unfold kept_nums. cbn [seq filter]. destruct kept; reflexivity. }
  destruct (kept salt j) eqn:K.
  - right. exists 1%nat, (of_mont (candidate salt j)), s1. split; [reflexivity|]. split; [lia|].
    rewrite Nat.add_1_r. split; [exact A1|]. rewrite KN. reflexivity.
  - destruct (IH (S j) s1 A1) as [[E2 K2]|[n [x [s2 [E2 [Hn [A2 K2]]]]]]].
    { intros C. specialize (R C). replace (S j + fuel)%nat with (j + S fuel)%nat by lia. exact R. }
    + left. split; [exact E2|]. rewrite KN. exact K2.
    + right. exists (S n), x, s2. split; [exact E2|]. split; [lia|].
      replace (j + S n)%nat with (S j + n)%nat by lia. split; [exact A2|]. rewrite KN. exact K2.
Qed.

Lemma room_le chk i j : room chk j -> (i <= j)%nat -> room chk i.
Proof. intros R H C. specialize (R C). nia. Qed.

Lemma gen_nums_at chk salt fuel : forall k j s, sb_at salt (2 * L * Z.of_nat j) s -> room chk (j + k * fuel) ->
  (gen_nums (p := p) k fuel chk s = Ok None) \/
  exists n l s', gen_nums (p := p) k fuel chk s = Ok (Some (l, s')) /\ (n <= k * fuel)%nat /\ length l = k /\
    sb_at salt (2 * L * Z.of_nat (j + n)) s' /\ kept_nums salt j n = l.
Proof.
  induction k as [|k IH]; intros j s A R; cbn [gen_nums].
  - right. exists 0%nat, [], s. rewrite Nat.add_0_r. repeat split; auto; apply A.
  - destruct (gen_num_at chk salt fuel j s A) as [[E1 _]|[n [x [s1 [E1 [Hn [A1 K1]]]]]]].
    { apply (room_le _ _ _ R). lia. }
    + left. rewrite E1. reflexivity.
    + rewrite E1. cbn [rbind]. destruct (IH (j + n)%nat s1 A1) as [E2|[m [l [s2 [E2 [Hm [HL [A2 K2]]]]]]]].
      { apply (room_le _ _ _ R). lia. }
      * left. rewrite E2. reflexivity.
      * right. rewrite E2. exists (n + m)%nat, (x :: l), s2. split; [reflexivity|]. split; [lia|].
        split; [cbn; lia|]. rewrite Nat.add_assoc. split; [exact A2|]. rewrite kept_nums_app, K1, K2. reflexivity.
Qed.

Lemma gen_rows_at chk salt fuel c : forall r j s, sb_at salt (2 * L * Z.of_nat j) s -> room chk (j + r * c * fuel) ->
  (gen_rows (p := p) r c fuel chk s = Ok None) \/
  exists n l s', gen_rows (p := p) r c fuel chk s = Ok (Some (l, s')) /\ (n <= r * c * fuel)%nat /\ length l = r /\ Forall (fun row => length row = c) l /\
    sb_at salt (2 * L * Z.of_nat (j + n)) s' /\ kept_nums salt j n = concat l.
Proof.
  induction r as [|r IH]; intros j s A R; cbn [gen_rows].
  - right. exists 0%nat, [], s. rewrite Nat.add_0_r. repeat split; auto; apply A.
  - destruct (gen_nums_at chk salt fuel c j s A) as [E1|[n [x [s1 [E1 [Hn [LX [A1 K1]]]]]]]].
    { apply (room_le _ _ _ R). nia. }
    + left. rewrite E1. reflexivity.
    + rewrite E1. cbn [rbind]. destruct (IH (j + n)%nat s1 A1) as [E2|[m [l [s2 [E2 [Hm [HL [HF [A2 K2]]]]]]]]].
      { apply (room_le _ _ _ R). nia. }
      * left. rewrite E2. reflexivity.
      * right. rewrite E2. exists (n + m)%nat, (x :: l), s2. split; [reflexivity|]. split; [nia|].
        split; [cbn; lia|]. split; [constructor; auto|]. rewrite Nat.add_assoc. split; [exact A2|]. rewrite kept_nums_app, K1, K2. reflexivity.
Qed.

(** The parameters are the first kept candidates, the constants first, then the
    matrix row by row. *)
Lemma pp_new_at fuel chk t f q : room chk ((f + q + t * t) * fuel) ->
  let salt := Some (blake2s 32 [] (pp_salt t f q)) in
  (@pp_new p fuel chk t f q = Ok None) \/
  exists P n, @pp_new p fuel chk t f q = Ok (Some P) /\ (n <= (f + q + t * t) * fuel)%nat /\
    ppt P = t /\ ppf P = f /\ ppp P = q /\ length (ppc P) = (f + q)%nat /\ length (ppm P) = t /\ Forall (fun row => length row = t) (ppm P) /\
    kept_nums salt 0 n = ppc P ++ concat (ppm P).
Proof.
  intros R salt. unfold pp_new. destruct (sb_at_salt (pp_salt t f q)) as [s0 [E0 A0]]. rewrite E0. cbn [rbind].
  fold salt in A0. replace 0 with (2 * L * Z.of_nat 0) in A0 by lia.
  destruct (gen_nums_at chk salt fuel (f + q) 0 s0 A0) as [E1|[n [c [s1 [E1 [Hn [LC [A1 K1]]]]]]]].
  { apply (room_le _ _ _ R). nia. }
  - left. rewrite E1. reflexivity.
  - rewrite E1. cbn [rbind]. destruct (gen_rows_at chk salt fuel t t (0 + n) s1 A1) as [E2|[m [rows [s2 [E2 [Hm [LR [HF [A2 K2]]]]]]]]].
    { apply (room_le _ _ _ R). nia. }
    + left. rewrite E2. reflexivity.
    + right. rewrite E2. exists (mkPP c rows t f q), (n + m)%nat. split; [reflexivity|]. split; [nia|]. cbn.
      repeat split; auto. rewrite kept_nums_app, K1, K2. reflexivity.
Qed.

(** The same draws as integers, for evaluation. *)
Fixpoint gen_raw (fuel : nat) (chk : bool) (s : Seedbox) : option (Z * Seedbox) :=
  match fuel with
  | O => None
  | S fuel =>
      match draw64 chk (num_limbs p) s with
      | Panic => None
      | Ok d =>
          let z := shave (p := p) (repr_val (fst d)) in
          if z <? Zpos p then Some (z, snd d) else gen_raw fuel chk (snd d)
      end
  end.
Fixpoint raws (k fuel : nat) (chk : bool) (s : Seedbox) : option (list Z * Seedbox) :=
  match k with
  | O => Some ([], s)
  | S k => match gen_raw fuel chk s with
           | None => None
           | Some (x, s) => match raws k fuel chk s with None => None | Some (l, s) => Some (x :: l, s) end
           end
  end.
Fixpoint raw_rows (r k fuel : nat) (chk : bool) (s : Seedbox) : option (list (list Z) * Seedbox) :=
  match r with
  | O => Some ([], s)
  | S r => match raws k fuel chk s with
           | None => None
           | Some (x, s) => match raw_rows r k fuel chk s with None => None | Some (l, s) => Some (x :: l, s) end
           end
  end.
Lemma gen_raw_ok chk : forall fuel s z s', gen_raw fuel chk s = Some (z, s') -> gen_num (p := p) fuel chk s = Ok (Some (of_mont z, s')) /\ 0 <= z < Zpos p.
Proof.
  induction fuel as [|fuel IH]; intros s z s' H; cbn [gen_raw gen_num] in *; [discriminate|].
  destruct draw64 as [d|]; [|discriminate]. cbn [rbind]. cbv zeta in *. destruct (Z.ltb_spec (shave (p := p) (repr_val (fst d))) (Zpos p)) as [C|C].
  - assert (z = shave (p := p) (repr_val (fst d)) /\ s' = snd d) as [-> ->] by (split; congruence). split; [reflexivity|]. split; [|exact C].
    unfold shave. apply Z.mod_pos_bound. apply Z.pow_pos_nonneg; lia.
  - apply IH; auto.
Qed.
Lemma raws_ok fuel chk : forall k s l s', raws k fuel chk s = Some (l, s') -> gen_nums (p := p) k fuel chk s = Ok (Some (map of_mont l, s')).
Proof.
  induction k as [|k IH]; intros s l s' H; cbn [raws gen_nums] in *; [assert (l = [] /\ s' = s) as [-> ->] by (split; congruence); reflexivity|].
  destruct (gen_raw fuel chk s) as [[z s1]|] eqn:E; [|discriminate]. destruct (gen_raw_ok chk _ _ _ _ E) as [-> _]. cbn [rbind].
  destruct (raws k fuel chk s1) as [[l1 s2]|] eqn:E2; [|discriminate]. rewrite (IH _ _ _ E2). cbn [rbind option_map fst snd].
  assert (l = z :: l1 /\ s' = s2) as [-> ->] by (split; congruence). reflexivity.
Qed.
Lemma raw_rows_ok fuel chk k : forall r s l s', raw_rows r k fuel chk s = Some (l, s') -> gen_rows (p := p) r k fuel chk s = Ok (Some (map (map of_mont) l, s')).
Proof.
  induction r as [|r IH]; intros s l s' H; cbn [raw_rows gen_rows] in *; [assert (l = [] /\ s' = s) as [-> ->] by (split; congruence); reflexivity|].
  destruct (raws k fuel chk s) as [[z s1]|] eqn:E; [|discriminate]. rewrite (raws_ok _ _ _ _ _ _ E). cbn [rbind].
  destruct (raw_rows r k fuel chk s1) as [[l1 s2]|] eqn:E2; [|discriminate]. rewrite (IH _ _ _ E2). cbn [rbind option_map fst snd].
  assert (l = z :: l1 /\ s' = s2) as [-> ->] by (split; congruence). reflexivity.
Qed.
(** The draws succeed and the first column of the matrix has no zero. *)
Definition raw_check (fuel t f q : nat) : bool :=
  match sb_new_with_salt (pp_salt t f q) with
  | Panic => false
  | Ok s => match raws (f + q) fuel true s with
            | None => false
            | Some (_, s) => match raw_rows t t fuel true s with
                             | None => false
                             | Some (m, _) => forallb (fun row => match row with [] => false | z :: _ => negb (z mod Zpos p =? 0) end) m
                             end
            end
  end.
Lemma prime_pow2 q : prime q -> 2 < q -> forall n, 0 <= n -> ~ (q | 2 ^ n).
Proof.
  intros Hq H2. apply (natlike_ind (fun n => ~ (q | 2 ^ n))).
  - intros D. apply Z.divide_1_r_nonneg in D; lia.
  - intros n Hn IH D. rewrite Z.pow_succ_r in D by lia. destruct (prime_mult q Hq _ _ D) as [C|C]; [|auto].
    apply Z.divide_pos_le in C; lia.
Qed.
Lemma of_mont_nz (Hp : prime (Zpos p)) z : 2 < Zpos p -> z mod Zpos p <> 0 -> of_mont (p := p) z <> n0.
Proof.
  intros H2 Hz E. unfold of_mont, fdiv in E.
  set (R := 2 ^ (64 * Z.of_nat (num_limbs p))) in *.
  assert (RN : (num R : F) <> n0).
  { intros C. apply num_eq_mod in C. rewrite Z.mod_0_l in C by lia.
    assert (D : (Zpos p | R)) by (apply Z.mod_divide; lia).
    apply (prime_pow2 (Zpos p) Hp H2 (64 * Z.of_nat (num_limbs p))); [lia|exact D]. }
  assert (ZN : (num z : F) <> n0).
  { intros C. apply num_eq_mod in C. rewrite Z.mod_0_l in C by lia. contradiction. }
  apply (nmul_nonzero Hp (num z) (finv (num R)) ZN); [|exact E].
  intros C. pose proof (finv_l Hp (num R) RN) as I. rewrite C in I.
  apply (n1_neq_n0 Hp). rewrite <- I. apply neqb_eq. unfold neqb, nmul, n0. rewrite !nval_num, Zmod_0_l. reflexivity.
Qed.
Lemma raw_check_ok (Hp : prime (Zpos p)) fuel t f q : 2 < Zpos p -> raw_check fuel t f q = true ->
  exists P, @pp_new p fuel true t f q = Ok (Some P) /\ Forall (fun row => nth 0 row n0 <> n0) (ppm P).
Proof.
  intros H2. unfold raw_check, pp_new. destruct sb_new_with_salt as [s0|]; [|discriminate]. cbn [rbind].
  destruct raws as [[c s1]|] eqn:E1; [|discriminate]. rewrite (raws_ok _ _ _ _ _ _ E1). cbn [rbind].
  destruct raw_rows as [[m s2]|] eqn:E2; [|discriminate]. rewrite (raw_rows_ok _ _ _ _ _ _ _ E2). cbn [rbind option_map fst].
  intros C. eexists. split; [reflexivity|]. cbn [ppm]. rewrite Forall_map. rewrite forallb_forall in C. apply Forall_forall.
  intros row Hr. specialize (C row Hr). destruct row as [|z row]; [discriminate|]. cbn [map nth].
  apply (of_mont_nz Hp); auto. intros X. rewrite X in C. discriminate.
Qed.
End Gen.
