(** Encodings of native numbers: lemmas. *)

From Verif Require Export NumCodec BitsTheory.
Open Scope Z_scope.

(** ** Bytes *)
Lemma le_bytes_length n z : length (le_bytes n z) = n.
Proof. unfold le_bytes. now rewrite map_length, seq_length. Qed.
Lemma be_bytes_length n z : length (be_bytes n z) = n.
Proof. unfold be_bytes. now rewrite rev_length, le_bytes_length. Qed.
Lemma le_bytes_byte n z : Forall byte (le_bytes n z).
Proof. unfold le_bytes. apply Forall_forall. intros b H. apply in_map_iff in H. destruct H as [i [<- _]]. unfold byte. pose proof (Z.mod_pos_bound (z / 2 ^ (8 * Z.of_nat i)) 256). lia. Qed.
Lemma be_bytes_byte n z : Forall byte (be_bytes n z).
Proof. unfold be_bytes. apply Forall_rev, le_bytes_byte. Qed.
Lemma le_bytes_S n z : le_bytes (S n) z = z mod 256 :: le_bytes n (z / 256).
Proof.
  unfold le_bytes. cbn [seq map]. f_equal; [now rewrite Z.div_1_r|]. rewrite <- seq_shift, map_map. apply map_ext.
  intros i. f_equal. rewrite Z.div_div by (try lia; apply Z.pow_pos_nonneg; lia). f_equal.
  replace (8 * Z.of_nat (S i)) with (8 + 8 * Z.of_nat i) by lia. rewrite Z.pow_add_r by lia. reflexivity.
Qed.
Lemma be_val_acc bs a : fold_left (fun a b => 256 * a + b) bs a = a * 256 ^ Z.of_nat (length bs) + be_val bs.
Proof.
  unfold be_val. revert a. induction bs as [|b bs IH]; intros a; cbn [fold_left length]; [cbn; lia|].
  rewrite IH, (IH (256 * 0 + b)). rewrite Nat2Z.inj_succ, Z.pow_succ_r by lia. ring.
Qed.
Lemma be_val_cons b bs : be_val (b :: bs) = b * 256 ^ Z.of_nat (length bs) + be_val bs.
Proof. unfold be_val at 1. cbn [fold_left]. rewrite be_val_acc. f_equal. Qed.
Lemma be_val_app a b : be_val (a ++ b) = be_val a * 256 ^ Z.of_nat (length b) + be_val b.
Proof. unfold be_val at 1. rewrite fold_left_app. fold (be_val a). apply be_val_acc. Qed.
Lemma be_val_zeros n bs : be_val (repeat 0 n ++ bs) = be_val bs.
Proof. rewrite be_val_app. replace (be_val (repeat 0 n)) with 0; [lia|]. induction n; cbn [repeat]; [reflexivity|]. rewrite be_val_cons, <- IHn. lia. Qed.
Lemma le_val_cons b bs : le_val (b :: bs) = b + 256 * le_val bs.
Proof. unfold le_val. cbn [rev]. rewrite be_val_app. cbn [length]. unfold be_val at 2. cbn [fold_left]. change (256 ^ Z.of_nat 1) with 256. lia. Qed.
Lemma le_val_nil : le_val [] = 0.
Proof. reflexivity. Qed.
Lemma le_val_app a b : le_val (a ++ b) = le_val a + 256 ^ Z.of_nat (length a) * le_val b.
Proof. unfold le_val. rewrite rev_app_distr, be_val_app, rev_length. ring. Qed.
Lemma le_val_le_bytes n : forall z, le_val (le_bytes n z) = z mod 256 ^ Z.of_nat n.
Proof.
  induction n as [|n IH]; intros z; [cbn; now rewrite Z.mod_1_r|].
  rewrite le_bytes_S, le_val_cons, IH. rewrite Nat2Z.inj_succ, Z.pow_succ_r by lia.
  rewrite Z.rem_mul_r by (try lia; apply Z.pow_pos_nonneg; lia). reflexivity.
Qed.
Lemma be_val_be_bytes n z : be_val (be_bytes n z) = z mod 256 ^ Z.of_nat n.
Proof. rewrite <- le_val_le_bytes. unfold le_val, be_bytes. reflexivity. Qed.
Lemma le_val_range bs : Forall byte bs -> 0 <= le_val bs < 256 ^ Z.of_nat (length bs).
Proof.
  induction 1 as [|b bs Hb _ IH]; [cbn; lia|]. rewrite le_val_cons. cbn [length].
  rewrite Nat2Z.inj_succ, Z.pow_succ_r by lia. unfold byte in Hb. lia.
Qed.
Lemma be_val_range bs : Forall byte bs -> 0 <= be_val bs < 256 ^ Z.of_nat (length bs).
Proof. intros H. apply Forall_rev in H. apply le_val_range in H. unfold le_val in H. now rewrite rev_involutive, rev_length in H. Qed.
Lemma le_bytes_le_val bs : Forall byte bs -> le_bytes (length bs) (le_val bs) = bs.
Proof.
  induction 1 as [|b bs Hb _ IH]; [reflexivity|]. cbn [length]. rewrite le_bytes_S, le_val_cons. unfold byte in Hb.
  rewrite (Z.mul_comm 256), Z_mod_plus_full, Z.mod_small by lia. rewrite Z_div_plus_full, Z.div_small by lia.
  cbn [Z.add]. now rewrite IH.
Qed.
Lemma be_bytes_be_val bs : Forall byte bs -> be_bytes (length bs) (be_val bs) = bs.
Proof.
  intros H. unfold be_bytes. apply Forall_rev in H. apply le_bytes_le_val in H. unfold le_val in H.
  rewrite rev_length, rev_involutive in H. rewrite H. apply rev_involutive.
Qed.
Lemma le_val_inj a b : Forall byte a -> Forall byte b -> length a = length b -> le_val a = le_val b -> a = b.
Proof. intros Ha Hb El E. rewrite <- (le_bytes_le_val a), <- (le_bytes_le_val b) by auto. now rewrite El, E. Qed.
Lemma le_bytes_app m n z : le_bytes (m + n) z = le_bytes m z ++ le_bytes n (z / 256 ^ Z.of_nat m).
Proof.
  revert z. induction m as [|m IH]; intros z; [cbn [plus]; cbn; now rewrite Z.div_1_r|].
  cbn [plus]. rewrite !le_bytes_S, IH. cbn [app]. do 2 f_equal.
  rewrite Z.div_div by (try lia; apply Z.pow_pos_nonneg; lia). f_equal. rewrite Nat2Z.inj_succ, Z.pow_succ_r by lia. reflexivity.
Qed.
Lemma le_bytes_mod n z : le_bytes n (z mod 256 ^ Z.of_nat n) = le_bytes n z.
Proof.
  rewrite <- le_val_le_bytes. rewrite <- (le_bytes_length n z) at 1. apply le_bytes_le_val, le_bytes_byte.
Qed.

(** ** Limbs *)
Lemma limbs_of_S n z : limbs_of (S n) z = z mod 2 ^ 64 :: limbs_of n (z / 2 ^ 64).
Proof.
  unfold limbs_of. cbn [seq map]. f_equal; [now rewrite Z.div_1_r|]. rewrite <- seq_shift, map_map. apply map_ext.
  intros i. f_equal. rewrite Z.div_div by (try lia; apply Z.pow_pos_nonneg; lia). f_equal.
  replace (64 * Z.of_nat (S i)) with (64 + 64 * Z.of_nat i) by lia. rewrite Z.pow_add_r by lia. reflexivity.
Qed.
Lemma pow64 n : 2 ^ (64 * Z.of_nat (S n)) = 2 ^ 64 * 2 ^ (64 * Z.of_nat n).
Proof. rewrite <- Z.pow_add_r by lia. f_equal. lia. Qed.
Lemma repr_val_limbs n : forall z, repr_val (limbs_of n z) = z mod 2 ^ (64 * Z.of_nat n).
Proof.
  induction n as [|n IH]; intros z; [cbn; now rewrite Z.mod_1_r|].
  rewrite limbs_of_S. cbn [repr_val]. rewrite IH, pow64. rewrite Z.rem_mul_r by (try lia; apply Z.pow_pos_nonneg; lia). reflexivity.
Qed.
Lemma write_le_limbs n : forall z, write_le (limbs_of n z) = le_bytes (8 * n) z.
Proof.
  unfold write_le. induction n as [|n IH]; intros z; [reflexivity|].
  rewrite limbs_of_S. cbn [map concat]. rewrite IH. replace (8 * S n)%nat with (8 + 8 * n)%nat by lia.
  rewrite le_bytes_app. change (256 ^ Z.of_nat 8) with (2 ^ 64). f_equal.
  change (2 ^ 64) with (256 ^ Z.of_nat 8). apply le_bytes_mod.
Qed.
Lemma write_be_rev t : write_be t = rev (write_le t).
Proof.
  unfold write_be, write_le. induction t as [|w t IH]; [reflexivity|]. cbn [rev map concat].
  rewrite map_app, concat_app, IH. cbn [map concat]. rewrite app_nil_r, rev_app_distr. reflexivity.
Qed.
Lemma write_be_limbs n z : write_be (limbs_of n z) = be_bytes (8 * n) z.
Proof. rewrite write_be_rev, write_le_limbs. reflexivity. Qed.

Lemma take_bytes_app a b : take_bytes (length a) (a ++ b) = Some (a, b).
Proof.
  unfold take_bytes. rewrite app_length. rewrite (proj2 (Nat.leb_le _ _)) by lia.
  now rewrite firstn_app, Nat.sub_diag, firstn_O, firstn_all, app_nil_r, skipn_app, skipn_all, Nat.sub_diag.
Qed.
Lemma take_bytes_some n buf a b : take_bytes n buf = Some (a, b) -> buf = a ++ b /\ length a = n.
Proof.
  unfold take_bytes. destruct (Nat.leb_spec n (length buf)); [|discriminate]. intros E. injection E as <- <-.
  split; [symmetry; apply firstn_skipn|apply firstn_length_le; auto].
Qed.
Lemma take_bytes_none n buf : take_bytes n buf = None <-> (length buf < n)%nat.
Proof. unfold take_bytes. destruct (Nat.leb_spec n (length buf)); split; intros; try discriminate; auto; lia. Qed.

Lemma read_le_spec n : forall buf,
  if Nat.leb (8 * n) (length buf)
  then exists t, read_le n buf = Some (t, skipn (8 * n) buf) /\ length t = n /\ repr_val t = le_val (firstn (8 * n) buf) /\
       (Forall byte buf -> Forall (fun w => 0 <= w < 2 ^ 64) t)
  else read_le n buf = None.
Proof.
  induction n as [|n IH]; intros buf.
  - cbn [Nat.mul Nat.leb skipn firstn]. exists []. repeat split; auto.
  - cbn [read_le]. destruct (Nat.leb_spec (8 * S n) (length buf)) as [H|H].
    + destruct (take_bytes 8 buf) as [[w b]|] eqn:E; [|apply take_bytes_none in E; lia].
      apply take_bytes_some in E. destruct E as [-> Ew]. rewrite app_length in H. specialize (IH b).
      rewrite (proj2 (Nat.leb_le _ _)) in IH by lia. destruct IH as [t [E1 [E2 [E3 E4]]]]. rewrite E1.
      replace (8 * S n)%nat with (length w + 8 * n)%nat by lia.
      rewrite skipn_app, (skipn_all2 w) by lia. rewrite firstn_app, (firstn_all2 w) by lia.
      replace (length w + 8 * n - length w)%nat with (8 * n)%nat by lia. cbn [app].
      exists (le_val w :: t). repeat split; auto.
      * cbn [length]. lia.
      * cbn [repr_val]. rewrite le_val_app, Ew, E3. reflexivity.
      * intros Hb. apply Forall_app in Hb. destruct Hb as [Hw Hb]. constructor; auto.
        apply le_val_range in Hw. now rewrite Ew in Hw.
    + destruct (take_bytes 8 buf) as [[w b]|] eqn:E; auto. apply take_bytes_some in E. destruct E as [-> Ew].
      rewrite app_length in H. specialize (IH b). rewrite (proj2 (Nat.leb_gt _ _)) in IH by lia. now rewrite IH.
Qed.
Lemma read_be_acc_spec n : forall acc buf,
  if Nat.leb (8 * n) (length buf)
  then exists t, read_be_acc n acc buf = Some (t ++ acc, skipn (8 * n) buf) /\ length t = n /\ repr_val t = be_val (firstn (8 * n) buf)
  else read_be_acc n acc buf = None.
Proof.
  assert (RA : forall t w, repr_val (t ++ [w]) = repr_val t + 2 ^ (64 * Z.of_nat (length t)) * w).
  { induction t as [|x t IH]; intros w; cbn [app repr_val]; [cbn [length]; change (2 ^ (64 * Z.of_nat 0)) with 1; lia|]. rewrite IH. cbn [length]. rewrite pow64. ring. }
  induction n as [|n IH]; intros acc buf.
  - cbn [Nat.mul Nat.leb skipn firstn]. exists []. repeat split; auto.
  - cbn [read_be_acc]. destruct (Nat.leb_spec (8 * S n) (length buf)) as [H|H].
    + destruct (take_bytes 8 buf) as [[w b]|] eqn:E; [|apply take_bytes_none in E; lia].
      apply take_bytes_some in E. destruct E as [-> Ew]. rewrite app_length in H. specialize (IH (be_val w :: acc) b).
      rewrite (proj2 (Nat.leb_le _ _)) in IH by lia. destruct IH as [t [E1 [E2 E3]]]. rewrite E1.
      replace (8 * S n)%nat with (length w + 8 * n)%nat by lia.
      rewrite skipn_app, (skipn_all2 w) by lia. rewrite firstn_app, (firstn_all2 w) by lia.
      replace (length w + 8 * n - length w)%nat with (8 * n)%nat by lia. cbn [app].
      exists (t ++ [be_val w]). repeat split.
      * now rewrite <- app_assoc.
      * rewrite app_length. cbn [length]. lia.
      * rewrite RA, be_val_app, E3, firstn_length_le, E2 by lia.
        replace (256 ^ Z.of_nat (8 * n)) with (2 ^ (64 * Z.of_nat n)); [ring|].
        change 256 with (2 ^ 8). rewrite <- Z.pow_mul_r by lia. f_equal. lia.
    + destruct (take_bytes 8 buf) as [[w b]|] eqn:E; auto. apply take_bytes_some in E. destruct E as [-> Ew].
      rewrite app_length in H. specialize (IH (be_val w :: acc) b). rewrite (proj2 (Nat.leb_gt _ _)) in IH by lia. now rewrite IH.
Qed.
Lemma pow256 n : 256 ^ Z.of_nat (8 * n) = 2 ^ (64 * Z.of_nat n).
Proof. change 256 with (2 ^ 8). rewrite <- Z.pow_mul_r by lia. f_equal. lia. Qed.

(** ** Sizes *)
Definition full_bytes (p : positive) : bool := Nat.eqb (num_bytes p) (8 * num_limbs p).
Lemma num_bytes_bound p : (num_bits p <= 8 * num_bytes p)%nat /\ (num_bytes p <= 8 * num_limbs p)%nat.
Proof.
  pose proof (num_bits_limbs p) as H. unfold num_bytes. pose proof (Nat.div_mod (num_bits p) 8 ltac:(lia)) as D.
  pose proof (Nat.mod_upper_bound (num_bits p) 8 ltac:(lia)).
  destruct (Nat.eqb_spec (num_bits p mod 8) 0) as [E|E]; lia.
Qed.
Lemma p_lt_bytes p : Zpos p < 256 ^ Z.of_nat (num_bytes p).
Proof.
  pose proof (num_bits_upper p). pose proof (num_bytes_bound p) as [H1 _]. change 256 with (2 ^ 8).
  rewrite <- Z.pow_mul_r by lia. eapply Z.lt_le_trans; [eassumption|]. apply Z.pow_le_mono_r; lia.
Qed.

Section Spec.
Context {p : positive}.
Notation F := (Num p).

Lemma from_repr_iff t : @from_repr p t = if repr_val t <? Zpos p then Some (num (repr_val t)) else None.
Proof. reflexivity. Qed.
Lemma borsh_ser_bytes (a : F) : borsh_ser a = le_bytes (8 * num_limbs p) (nval a).
Proof. unfold borsh_ser, into_repr. apply write_le_limbs. Qed.
Lemma nval_lt_bytes (a : F) : 0 <= nval a < 256 ^ Z.of_nat (8 * num_limbs p).
Proof. rewrite pow256. pose proof (nval_lt_limbs a). pose proof (nval_range a). replace (64 * Z.of_nat (num_limbs p)) with (Z.of_nat (64 * num_limbs p)) by lia. lia. Qed.
Lemma borsh_de_spec buf : @borsh_de p buf =
  if Nat.leb (8 * num_limbs p) (length buf) then
    let v := le_val (firstn (8 * num_limbs p) buf) in
    if v <? Zpos p then Some (num v, skipn (8 * num_limbs p) buf) else None
  else None.
Proof.
  unfold borsh_de. pose proof (read_le_spec (num_limbs p) buf) as H. destruct (Nat.leb _ _).
  - destruct H as [t [-> [_ [E _]]]]. unfold from_repr. rewrite E. cbv zeta. destruct (_ <? _); reflexivity.
  - now rewrite H.
Qed.
Lemma borsh_roundtrip (a : F) rest : borsh_de (borsh_ser a ++ rest) = Some (a, rest).
Proof.
  rewrite borsh_de_spec, borsh_ser_bytes. pose proof (le_bytes_length (8 * num_limbs p) (nval a)) as L.
  rewrite app_length, (proj2 (Nat.leb_le _ _)) by lia.
  rewrite firstn_app, firstn_all2, skipn_app, skipn_all2, L, Nat.sub_diag by lia. cbn [firstn skipn app]. rewrite app_nil_r.
  rewrite le_val_le_bytes, Z.mod_small by apply nval_lt_bytes. cbv zeta. pose proof (nval_range a) as R.
  rewrite (proj2 (Z.ltb_lt _ _)) by lia. now rewrite num_nval.
Qed.
Lemma borsh_de_canonical buf (a : F) rest : Forall byte buf -> borsh_de buf = Some (a, rest) -> buf = borsh_ser a ++ rest.
Proof.
  intros Hb. rewrite borsh_de_spec. destruct (Nat.leb_spec (8 * num_limbs p) (length buf)) as [H|H]; [|discriminate].
  cbv zeta. set (w := firstn _ buf). assert (Lw : length w = (8 * num_limbs p)%nat) by (apply firstn_length_le; auto).
  assert (Bw : Forall byte w). { rewrite <- (firstn_skipn (8 * num_limbs p) buf) in Hb. now apply Forall_app in Hb. }
  destruct (Z.ltb_spec (le_val w) (Zpos p)) as [H1|H1]; [|discriminate]. intros E.
  assert (E1 : a = num (le_val w)) by congruence. assert (E2 : rest = skipn (8 * num_limbs p) buf) by congruence. subst a rest.
  rewrite borsh_ser_bytes, nval_num_small by (pose proof (le_val_range w Bw); lia).
  assert (Ew : le_bytes (8 * num_limbs p) (le_val w) = w) by (rewrite <- Lw; now apply le_bytes_le_val). rewrite Ew.
  symmetry. apply firstn_skipn.
Qed.

Lemma write_slice_fit bs cap : length bs = cap -> write_slice bs cap = Some bs.
Proof. intros <-. unfold write_slice. rewrite Nat.leb_refl, Nat.sub_diag. cbn [repeat]. now rewrite app_nil_r. Qed.
Lemma write_slice_none bs cap : (cap < length bs)%nat -> write_slice bs cap = None.
Proof. intros H. unfold write_slice. now rewrite (proj2 (Nat.leb_gt _ _)) by auto. Qed.

Lemma into_binary_be_ok (a : F) : into_binary_be a = if full_bytes p then Ok (be_bytes (num_bytes p) (nval a)) else Panic.
Proof.
  unfold into_binary_be, into_repr, full_bytes. rewrite write_be_limbs. pose proof (be_bytes_length (8 * num_limbs p) (nval a)) as L.
  pose proof (num_bytes_bound p) as [_ B]. destruct (Nat.eqb_spec (num_bytes p) (8 * num_limbs p)) as [E|E].
  - rewrite write_slice_fit by lia. now rewrite E.
  - now rewrite write_slice_none by lia.
Qed.
Lemma biguint_len_bound z n : 0 <= z < 256 ^ Z.of_nat n -> (1 <= n)%nat -> (biguint_len z <= n)%nat.
Proof.
  intros H Hn. unfold biguint_len. destruct (Z.eq_dec z 0) as [->|N]; [cbn; lia|].
  assert (Z.log2 z < 8 * Z.of_nat n).
  { apply Z.log2_lt_pow2; [lia|]. rewrite Z.pow_mul_r by lia. exact (proj2 H). }
  assert (Z.log2 z / 8 < Z.of_nat n) by (apply Z.div_lt_upper_bound; lia). pose proof (Z.log2_nonneg z).
  pose proof (Z.div_pos (Z.log2 z) 8 ltac:(lia) ltac:(lia)). lia.
Qed.
Lemma biguint_bytes_val z : 0 <= z -> be_val (biguint_bytes_be z) = z.
Proof.
  intros H. unfold biguint_bytes_be. rewrite be_val_be_bytes. apply Z.mod_small. split; auto.
  unfold biguint_len. pose proof (Z.log2_nonneg z). pose proof (Z.div_pos (Z.log2 z) 8 ltac:(lia) ltac:(lia)).
  rewrite Z2Nat.id by lia. destruct (Z.eq_dec z 0) as [->|N]; [cbn; lia|]. pose proof (Z.log2_spec z ltac:(lia)) as [_ L].
  eapply Z.lt_le_trans; [exact L|]. change 256 with (2 ^ 8). rewrite <- Z.pow_mul_r by lia. apply Z.pow_le_mono_r; [lia|].
  pose proof (Z.div_mod (Z.log2 z) 8 ltac:(lia)). pose proof (Z.mod_pos_bound (Z.log2 z) 8 ltac:(lia)). lia.
Qed.
Lemma num_bytes_pos : (1 <= num_bytes p)%nat.
Proof. pose proof (num_bytes_bound p) as [H _]. pose proof (num_bits_pos p). lia. Qed.
Lemma of_remainder_ok r : full_bytes p = true -> 0 <= r < Zpos p -> of_remainder r = Ok (num r : F).
Proof.
  intros Hf Hr. apply Nat.eqb_eq in Hf. unfold of_remainder. cbv zeta. pose proof (p_lt_bytes p) as B.
  pose proof (biguint_len_bound r (num_bytes p) ltac:(lia) num_bytes_pos) as L.
  assert (Lb : length (biguint_bytes_be r) = biguint_len r) by apply be_bytes_length.
  rewrite Lb, (proj2 (Nat.leb_le _ _)) by auto. cbn [rassert rbind].
  set (buf := repeat 0 _ ++ _). assert (Lf : length buf = (8 * num_limbs p)%nat) by (unfold buf; rewrite app_length, repeat_length; lia).
  pose proof (read_be_acc_spec (num_limbs p) [] buf) as R. rewrite Lf, Nat.leb_refl in R. destruct R as [t [E1 [E2 E3]]].
  unfold read_be. rewrite E1, app_nil_r. cbn [unwrap rbind fst]. unfold from_repr. rewrite E3, firstn_all2 by lia.
  unfold buf. rewrite be_val_zeros, biguint_bytes_val by lia. rewrite (proj2 (Z.ltb_lt _ _)) by lia. reflexivity.
Qed.
Lemma order_ok : unwrap (write_slice (write_be (char_repr p)) (num_bytes p)) =
  if full_bytes p then Ok (be_bytes (8 * num_limbs p) (Zpos p)) else Panic.
Proof.
  unfold char_repr, full_bytes. rewrite write_be_limbs. pose proof (be_bytes_length (8 * num_limbs p) (Zpos p)) as L.
  pose proof (num_bytes_bound p) as [_ B]. destruct (Nat.eqb_spec (num_bytes p) (8 * num_limbs p)) as [E|E].
  - rewrite write_slice_fit by lia. reflexivity.
  - now rewrite write_slice_none by lia.
Qed.
Lemma order_val : be_val (be_bytes (8 * num_limbs p) (Zpos p)) = Zpos p.
Proof. rewrite be_val_be_bytes, pow256. apply Z.mod_small. pose proof (num_limbs_bound p). lia. Qed.
Lemma from_biguint_ok x : 0 <= x -> from_biguint x = if full_bytes p then Ok (num x : F) else Panic.
Proof.
  intros Hx. unfold from_biguint. rewrite order_ok. destruct (full_bytes p) eqn:E; [|reflexivity]. cbn [rbind].
  rewrite order_val, of_remainder_ok by (auto; apply Z.mod_pos_bound; lia). f_equal. apply num_eq_mod. now rewrite Z.mod_mod.
Qed.
Lemma from_bigint_ok x : from_bigint x = if full_bytes p then Ok (num x : F) else Panic.
Proof.
  unfold from_bigint. rewrite order_ok. destruct (full_bytes p) eqn:E; [|reflexivity]. cbn [rbind]. cbv zeta.
  rewrite order_val. set (r := if _ <? 0 then _ else _).
  assert (Er : r = x mod Zpos p).
  { unfold r. pose proof (Z.quot_rem' x (Zpos p)) as Q. pose proof (Z.rem_bound_abs x (Zpos p) ltac:(lia)) as B.
    destruct (Z.ltb_spec (Z.rem x (Zpos p)) 0).
    - symmetry. rewrite Q at 1. replace (Zpos p * (x ÷ Zpos p) + Z.rem x (Zpos p)) with (Z.rem x (Zpos p) + Zpos p + (x ÷ Zpos p - 1) * Zpos p) by ring.
      rewrite Z_mod_plus_full. apply Z.mod_small. lia.
    - symmetry. rewrite Q at 1. rewrite Z.mul_comm, Z.add_comm, Z_mod_plus_full. apply Z.mod_small. lia. }
  rewrite Er, of_remainder_ok by (auto; apply Z.mod_pos_bound; lia). f_equal. apply num_eq_mod. now rewrite Z.mod_mod.
Qed.
Lemma be_val_nonneg bs : Forall byte bs -> 0 <= be_val bs.
Proof. intros H. apply be_val_range in H. lia. Qed.
Lemma from_binary_be_ok bs : Forall byte bs -> from_binary_be bs = if full_bytes p then Ok (num (be_val bs) : F) else Panic.
Proof. intros H. apply from_biguint_ok. now apply be_val_nonneg. Qed.
Lemma into_biguint_ok (a : F) : into_biguint a = if full_bytes p then Ok (nval a) else Panic.
Proof.
  unfold into_biguint. rewrite into_binary_be_ok. destruct (full_bytes p) eqn:E; [|reflexivity]. cbn [rbind].
  rewrite be_val_be_bytes. f_equal. apply Z.mod_small. pose proof (nval_range a). pose proof (p_lt_bytes p). lia.
Qed.
Lemma be_roundtrip (a : F) : full_bytes p = true -> exists bs, into_binary_be a = Ok bs /\ length bs = num_bytes p /\
  Forall byte bs /\ be_val bs = nval a /\ from_binary_be bs = Ok a.
Proof.
  intros E. rewrite into_binary_be_ok, E. eexists. split; [reflexivity|]. split; [apply be_bytes_length|].
  assert (V : be_val (be_bytes (num_bytes p) (nval a)) = nval a).
  { rewrite be_val_be_bytes. apply Z.mod_small. pose proof (nval_range a). pose proof (p_lt_bytes p). lia. }
  split; [apply be_bytes_byte|]. split; auto. rewrite from_binary_be_ok by apply be_bytes_byte. now rewrite E, V, num_nval.
Qed.

(** ** Machine integers *)
Lemma num_limbs_pos : (1 <= num_limbs p)%nat.
Proof. pose proof (num_limbs_bound p). destruct (num_limbs p); [cbn in *; lia|lia]. Qed.
Lemma repr_val_zeros n : repr_val (repeat 0 n) = 0.
Proof. induction n; cbn [repeat repr_val]; lia. Qed.
Lemma from_limb_ok n : from_limb n = if n <? Zpos p then Ok (num n : F) else Panic.
Proof.
  unfold from_limb, from_repr. cbn [repr_val]. rewrite repr_val_zeros, Z.mul_0_r, Z.add_0_r. destruct (n <? Zpos p); reflexivity.
Qed.
Lemma from_signed_ok chk bits n : 0 < bits <= 64 -> - 2 ^ (bits - 1) < n < 2 ^ (bits - 1) -> Z.abs n < Zpos p ->
  from_signed chk bits n = Ok (num n : F).
Proof.
  intros Hb Hn Ha. unfold from_signed. destruct (Z.eqb_spec n (- 2 ^ (bits - 1))); [lia|]. cbn [rbind].
  assert (2 ^ (bits - 1) <= 2 ^ 63) by (apply Z.pow_le_mono_r; lia). rewrite Z.mod_small by lia.
  rewrite from_limb_ok, (proj2 (Z.ltb_lt _ _)) by auto. cbn [rbind]. destruct (Z.leb_spec 0 n).
  - now rewrite Z.abs_eq.
  - rewrite Z.abs_neq by lia. f_equal. rewrite <- num_opp. f_equal. lia.
Qed.
Lemma from_i64_ok chk n : - 2 ^ 63 < n < 2 ^ 63 -> Z.abs n < Zpos p -> from_i64 chk n = Ok (num n : F).
Proof. intros. apply from_signed_ok; auto. lia. Qed.
Lemma from_i32_ok chk n : - 2 ^ 31 < n < 2 ^ 31 -> Z.abs n < Zpos p -> from_i32 chk n = Ok (num n : F).
Proof. intros. apply from_signed_ok; auto. lia. Qed.
Lemma from_i64_min chk : 2 ^ 63 < Zpos p -> @from_i64 p chk (- 2 ^ 63) = if chk then Panic else Ok (num (- 2 ^ 63)).
Proof.
  intros H. unfold from_i64, from_signed. change (- 2 ^ 63 =? - 2 ^ (64 - 1)) with true. cbv iota. destruct chk; [reflexivity|].
  cbn [rbind]. change (- 2 ^ 63 mod 2 ^ 64) with (2 ^ 63). rewrite from_limb_ok, (proj2 (Z.ltb_lt _ _)) by auto. cbn [rbind].
  change (0 <=? - 2 ^ 63) with false. cbv iota. f_equal. now rewrite <- num_opp.
Qed.
Lemma from_i32_min chk : 2 ^ 64 < Zpos p -> @from_i32 p chk (- 2 ^ 31) = if chk then Panic else Ok (num (- (2 ^ 64 - 2 ^ 31))).
Proof.
  intros H. unfold from_i32, from_signed. change (- 2 ^ 31 =? - 2 ^ (32 - 1)) with true. cbv iota. destruct chk; [reflexivity|].
  cbn [rbind]. change (- 2 ^ 31 mod 2 ^ 64) with (2 ^ 64 - 2 ^ 31). rewrite from_limb_ok, (proj2 (Z.ltb_lt _ _)) by lia. cbn [rbind].
  change (0 <=? - 2 ^ 31) with false. cbv iota. f_equal. now rewrite <- num_opp.
Qed.
Lemma from_signed_big chk bits n : 0 < bits <= 64 -> - 2 ^ (bits - 1) < n < 2 ^ (bits - 1) -> Zpos p <= Z.abs n ->
  @from_signed p chk bits n = Panic.
Proof.
  intros Hb Hn Ha. unfold from_signed. destruct (Z.eqb_spec n (- 2 ^ (bits - 1))); [lia|]. cbn [rbind].
  assert (2 ^ (bits - 1) <= 2 ^ 63) by (apply Z.pow_le_mono_r; lia). rewrite Z.mod_small by lia.
  now rewrite from_limb_ok, (proj2 (Z.ltb_ge _ _)) by auto.
Qed.
Lemma repr_hd (a : F) : exists t, into_repr a = nval a mod 2 ^ 64 :: t /\ (forallb (fun x => x =? 0) t = true <-> nval a < 2 ^ 64).
Proof.
  unfold into_repr. pose proof num_limbs_pos as L. destruct (num_limbs p) as [|n] eqn:E; [lia|]. rewrite limbs_of_S.
  eexists. split; [reflexivity|]. pose proof (nval_range a) as R. pose proof (nval_lt_limbs a) as U. rewrite E in U.
  assert (V : repr_val (limbs_of n (nval a / 2 ^ 64)) = nval a / 2 ^ 64).
  { rewrite repr_val_limbs. apply Z.mod_small. split; [apply Z.div_pos; lia|]. apply Z.div_lt_upper_bound; [lia|].
    rewrite <- pow64. replace (64 * Z.of_nat (S n)) with (Z.of_nat (64 * S n)) by lia. exact U. }
  split; intros H.
  - assert (Z0 : repr_val (limbs_of n (nval a / 2 ^ 64)) = 0).
    { clear - H. induction (limbs_of n _) as [|w t IH]; [reflexivity|]. cbn [forallb] in H. apply Bool.andb_true_iff in H as [H1 H2].
      apply Z.eqb_eq in H1. cbn [repr_val]. rewrite IH by auto. lia. }
    rewrite V in Z0. apply Z.div_small_iff in Z0; lia.
  - rewrite Z.div_small by lia. apply forallb_forall. intros x Hx. unfold limbs_of in Hx. apply in_map_iff in Hx as [i [<- _]].
    rewrite Z.div_0_l by (apply Z.pow_nonzero; lia). reflexivity.
Qed.
Lemma into_u64_ok (a : F) : into_u64 a = if nval a <? 2 ^ 64 then Ok (nval a) else Panic.
Proof.
  unfold into_u64. destruct (repr_hd a) as [t [-> H]]. pose proof (nval_range a). destruct (Z.ltb_spec (nval a) (2 ^ 64)) as [L|L].
  - rewrite (proj2 H L). cbn [rassert rbind]. f_equal. apply Z.mod_small. lia.
  - destruct (forallb _ t) eqn:E; [|reflexivity]. exfalso. pose proof (proj1 H eq_refl). lia.
Qed.

(** ** Decimal strings *)
Definition digit (c : Z) : bool := (48 <=? c) && (c <=? 57).
Lemma digit_ok k : 0 <= k < 10 -> digit (48 + k) = true.
Proof. intros H. unfold digit. apply Bool.andb_true_iff. split; apply Z.leb_le; lia. Qed.
Definition dval (s : list Z) : Z := fold_left (fun a c => 10 * a + (c - 48)) s 0.
Lemma dval_acc s a : fold_left (fun a c => 10 * a + (c - 48)) s a = a * 10 ^ Z.of_nat (length s) + dval s.
Proof.
  unfold dval. revert a. induction s as [|c s IH]; intros a; cbn [fold_left length]; [cbn; lia|].
  rewrite IH, (IH (10 * 0 + (c - 48))). rewrite Nat2Z.inj_succ, Z.pow_succ_r by lia. ring.
Qed.
Lemma dval_cons c s : dval (c :: s) = (c - 48) * 10 ^ Z.of_nat (length s) + dval s.
Proof. unfold dval at 1. cbn [fold_left]. rewrite dval_acc. f_equal. Qed.
Lemma dec_digits_spec fuel : forall z acc, 0 <= z < 2 ^ Z.of_nat fuel -> (1 <= fuel)%nat ->
  exists s, dec_digits fuel z acc = s ++ acc /\ forallb digit s = true /\ s <> [] /\
    dval s = z /\ (exists c t, s = c :: t /\ (t <> [] -> c <> 48)).
Proof.
  induction fuel as [|fuel IH]; intros z acc Hz Hf; [lia|]. cbn [dec_digits]. cbv zeta.
  pose proof (Z.mod_pos_bound z 10 ltac:(lia)) as M. destruct (Z.ltb_spec z 10) as [L|L].
  - rewrite Z.mod_small by lia. exists [48 + z]. repeat split; auto.
    + cbn [forallb]. now rewrite digit_ok by lia.
    + discriminate.
    + unfold dval. cbn [fold_left]. lia.
    + exists (48 + z), []. split; auto.
  - destruct (IH (z / 10) ((48 + z mod 10) :: acc)) as [s [E1 [E2 [E3 [E4 E5]]]]].
    + split; [apply Z.div_pos; lia|]. apply Z.div_lt_upper_bound; [lia|].
      rewrite Nat2Z.inj_succ, Z.pow_succ_r in Hz by lia. lia.
    + destruct fuel; [cbn in Hz; lia|lia].
    + exists (s ++ [48 + z mod 10]). rewrite <- app_assoc. repeat split; auto.
      * rewrite forallb_app, E2. cbn [forallb]. now rewrite digit_ok by lia.
      * destruct s; discriminate.
      * unfold dval. rewrite fold_left_app. fold (dval s). cbn [fold_left]. rewrite E4. pose proof (Z.div_mod z 10 ltac:(lia)). lia.
      * destruct E5 as [c [t [-> Hc]]]. exists c, (t ++ [48 + z mod 10]). split; auto. intros _. destruct t as [|c' t]; [|apply Hc; discriminate].
        intros ->. unfold dval in E4. cbn [fold_left] in E4. assert (z / 10 = 0) by lia. apply Z.div_small_iff in H; lia.
Qed.
Lemma to_string_spec z : 0 <= z -> exists c t, biguint_to_string z = c :: t /\ forallb digit (c :: t) = true /\ dval (c :: t) = z /\ (t <> [] -> c <> 48).
Proof.
  intros H. unfold biguint_to_string. pose proof (Z.log2_nonneg z).
  destruct (dec_digits_spec (S (Z.to_nat (Z.log2 z))) z []) as [s [E1 [E2 [E3 [E4 [c [t [-> E5]]]]]]]].
  - split; auto. rewrite Nat2Z.inj_succ, Z2Nat.id by auto. destruct (Z.eq_dec z 0) as [->|N]; [cbn; lia|].
    apply Z.log2_spec; lia.
  - lia.
  - rewrite E1, app_nil_r. eauto 10.
Qed.
Lemma dec_parse_digits s a : forallb digit s = true -> dec_parse s a = Some (a * 10 ^ Z.of_nat (length s) + dval s).
Proof.
  revert a. induction s as [|c s IH]; intros a H; cbn [dec_parse].
  - cbn. f_equal. lia.
  - cbn [forallb] in H. apply Bool.andb_true_iff in H as [H1 H2]. unfold digit in H1. rewrite H1, IH by auto.
    rewrite dval_cons. cbn [length]. rewrite Nat2Z.inj_succ, Z.pow_succ_r by lia. f_equal. ring.
Qed.
Lemma biguint_parse_digits s : forallb digit s = true -> s <> [] -> biguint_from_str s = Some (dval s).
Proof.
  intros H N. destruct s as [|c s]; [congruence|]. pose proof H as H'. cbn [forallb] in H'. apply Bool.andb_true_iff in H' as [H1 H2].
  unfold digit in H1. apply Bool.andb_true_iff in H1 as [H3 H4]. apply Z.leb_le in H3, H4. unfold biguint_from_str. cbv zeta.
  destruct (Z.eqb_spec c 43); [lia|]. cbn [andb]. destruct (Z.eqb_spec c 95); [lia|]. rewrite dec_parse_digits by auto. reflexivity.
Qed.
Lemma to_string_parse z : 0 <= z -> biguint_from_str (biguint_to_string z) = Some z.
Proof.
  intros H. destruct (to_string_spec z H) as [c [t [-> [E1 [E2 _]]]]]. rewrite biguint_parse_digits, E2 by (auto; discriminate). reflexivity.
Qed.
Lemma dec_parse_nonneg s : forall a v, 0 <= a -> dec_parse s a = Some v -> 0 <= v.
Proof.
  induction s as [|c s IH]; intros a v Ha; cbn [dec_parse].
  - intros E. injection E as <-. auto.
  - destruct (_ && _) eqn:E; [|destruct (c =? 95); [|discriminate]; eauto]. intros Hv.
    apply Bool.andb_true_iff in E as [E1 E2]. apply Z.leb_le in E1. eapply IH; [|exact Hv]. lia.
Qed.
Lemma biguint_from_str_nonneg s v : biguint_from_str s = Some v -> 0 <= v.
Proof.
  unfold biguint_from_str. cbv zeta. destruct (match s with c :: t => _ | [] => s end) as [|c t]; [discriminate|].
  destruct (c =? 95); [discriminate|]. apply dec_parse_nonneg. lia.
Qed.
Lemma num_to_string_ok (a : F) : num_to_string a = if full_bytes p then Ok (biguint_to_string (nval a)) else Panic.
Proof. unfold num_to_string. rewrite into_biguint_ok. destruct (full_bytes p); reflexivity. Qed.
Lemma num_deserialize_ok s : full_bytes p = true -> 1 < Zpos p ->
  num_deserialize s = Ok (match biguint_from_str s with
                          | None => None
                          | Some v => if v <? Zpos p then Some (num v : F) else None
                          end).
Proof.
  intros Hf Hp. unfold num_deserialize. destruct (biguint_from_str s) as [v|] eqn:E; [|reflexivity].
  rewrite from_i32_ok by lia. cbn [rbind]. rewrite into_biguint_ok, Hf. cbn [rbind].
  pose proof (biguint_from_str_nonneg _ _ E) as Hv.
  assert (M : nval (num (-1) : F) = Zpos p - 1).
  { rewrite nval_num. replace (-1) with ((Zpos p - 1) + (-1) * Zpos p) by ring. rewrite Z_mod_plus_full. apply Z.mod_small. lia. }
  rewrite M, from_biguint_ok, Hf by auto. cbn [rmap]. destruct (Z.ltb_spec (Zpos p - 1) v), (Z.ltb_spec v (Zpos p)); auto; lia.
Qed.
Lemma ff_digits_ok s : forall first (acc : F), forallb digit s = true -> (first = true -> match s with c :: _ => c <> 48 | [] => True end) ->
  ff_digits s first acc = Some (num (nval acc * 10 ^ Z.of_nat (length s) + dval s)).
Proof.
  induction s as [|c s IH]; intros first acc H Hf; cbn [ff_digits].
  - f_equal. cbn [length dval fold_left]. unfold dval; cbn [fold_left]. rewrite Z.mul_1_r, Z.add_0_r. symmetry. apply num_nval.
  - cbn [forallb] in H. apply Bool.andb_true_iff in H as [H1 H2]. unfold digit in H1. rewrite H1.
    assert (E : first && (c =? 48) = false). { destruct first; auto. cbn. apply Z.eqb_neq. now apply Hf. }
    rewrite E, IH by (auto; discriminate). f_equal. rewrite dval_cons. cbn [length].
    apply num_eq_mod. rewrite Nat2Z.inj_succ, Z.pow_succ_r by lia.
    rewrite <- (num_nval acc) at 1. rewrite <- num_mul, <- num_add, nval_num.
    set (e := 10 ^ Z.of_nat (length s)). rewrite Z.add_mod, Z.mul_mod_idemp_l, <- Z.add_mod by lia. f_equal. ring.
Qed.
Lemma ff_from_str_ok s : forallb digit s = true -> s <> [] -> (s = [48] \/ hd 0 s <> 48) -> ff_from_str s = Some (num (dval s) : F).
Proof.
  intros H N Hs. assert (X : hd 0 s <> 48 -> ff_digits s true n0 = Some (num (dval s) : F)).
  { intros Hh. rewrite ff_digits_ok; auto.  intros _. destruct s; auto. }
  destruct s as [|c [|c' s]]; [congruence| |].
  - cbn [ff_from_str]. destruct (Z.eqb_spec c 48) as [->|Nc]; [reflexivity|]. apply X. exact Nc.
  - destruct Hs as [Hs|Hs]; [discriminate|]. cbn [ff_from_str]. now apply X.
Qed.
Lemma into_bool_ok (a : F) : into_bool a = if nis_zero a then Ok false else if neqb a n1 then Ok true else Panic.
Proof. reflexivity. Qed.
End Spec.

Lemma into_other_ok {p} q (a : Num p) : into_other q a = if full_bytes p && full_bytes q then Ok (num (nval a)) else Panic.
Proof.
  unfold into_other. rewrite into_binary_be_ok. destruct (full_bytes p) eqn:E; [|reflexivity]. cbn [rbind andb].
  rewrite from_binary_be_ok by apply be_bytes_byte. destruct (full_bytes q); [|reflexivity]. do 2 f_equal.
  rewrite be_val_be_bytes. apply Z.mod_small. pose proof (nval_range a). pose proof (p_lt_bytes p). lia.
Qed.
Lemma from_other_ok {p} q (a : Num q) : @from_other p q a = if full_bytes q && full_bytes p then Ok (num (nval a)) else Panic.
Proof. exact (into_other_ok p a). Qed.
