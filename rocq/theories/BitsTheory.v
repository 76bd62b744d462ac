(** Binary expansions. *)

From Verif Require Export NumBits FieldTheory.

Fixpoint bval (bs : list bool) : Z :=
  match bs with
  | [] => 0
  | b :: bs' => Z.b2z b + 2 * bval bs'
  end.
Definition bits_of (n : nat) (z : Z) : list bool := map (fun i => Z.testbit z (Z.of_nat i)) (seq 0 n).

Lemma bval_range bs : 0 <= bval bs < 2 ^ Z.of_nat (length bs).
Proof.
  induction bs as [|b bs IH]; [cbn; lia|].
  cbn [bval length]. rewrite Nat2Z.inj_succ, Z.pow_succ_r by lia. destruct b; cbn [Z.b2z]; lia.
Qed.

Lemma bits_of_length n z : length (bits_of n z) = n.
Proof. unfold bits_of. now rewrite map_length, seq_length. Qed.

Lemma bits_of_S n z : bits_of (S n) z = Z.testbit z 0 :: bits_of n (z / 2).
Proof.
  unfold bits_of. cbn [seq map]. f_equal. rewrite <- seq_shift, map_map. apply map_ext.
  intros i. rewrite Nat2Z.inj_succ. change (z / 2) with (z / 2 ^ 1).
  rewrite Z.div_pow2_bits by lia. f_equal; lia.
Qed.

Lemma bval_bits_of n : forall z, bval (bits_of n z) = z mod 2 ^ Z.of_nat n.
Proof.
  induction n as [|n IH]; intros z.
  - cbn. now rewrite Z.mod_1_r.
  - rewrite bits_of_S. cbn [bval]. rewrite IH.
    rewrite Nat2Z.inj_succ, Z.pow_succ_r by lia.
    rewrite Z.bit0_mod.
    assert (0 < 2 ^ Z.of_nat n) by (apply Z.pow_pos_nonneg; lia).
    rewrite Z.rem_mul_r by lia. reflexivity.
Qed.

Lemma bval_inj bs bs' : length bs = length bs' -> bval bs = bval bs' -> bs = bs'.
Proof.
  revert bs'. induction bs as [|b bs IH]; intros [|b' bs']; cbn [length bval]; try discriminate; auto.
  intros Hl H. assert (b = b').
  { destruct b, b'; cbn [Z.b2z] in H; auto; lia. }
  subst. f_equal. apply IH; lia.
Qed.

Lemma bits_of_bval bs : bits_of (length bs) (bval bs) = bs.
Proof.
  apply bval_inj; [apply bits_of_length|].
  rewrite bval_bits_of. apply Z.mod_small, bval_range.
Qed.

Lemma bval_app a b : bval (a ++ b) = bval a + 2 ^ Z.of_nat (length a) * bval b.
Proof.
  induction a as [|x a IH]; cbn [app bval length]; [rewrite Z.mul_1_l; lia|].
  rewrite IH, Nat2Z.inj_succ, Z.pow_succ_r by lia. ring.
Qed.

Lemma nth_error_bits_of n z i : (i < n)%nat -> nth_error (bits_of n z) i = Some (Z.testbit z (Z.of_nat i)).
Proof.
  intros H. unfold bits_of. rewrite nth_error_map.
  rewrite (nth_error_nth' _ 0%nat) by (rewrite seq_length; lia). rewrite seq_nth by lia. reflexivity.
Qed.

(** Sizes. *)
Lemma size_nat_bounds p : 2 ^ (Z.of_nat (Pos.size_nat p) - 1) <= Zpos p < 2 ^ Z.of_nat (Pos.size_nat p).
Proof.
  induction p as [p IH|p IH|]; cbn [Pos.size_nat]; [| |cbn; lia];
    rewrite Nat2Z.inj_succ; rewrite Z.pow_succ_r by lia;
    replace (Z.succ (Z.of_nat (Pos.size_nat p)) - 1) with (Z.succ (Z.of_nat (Pos.size_nat p) - 1)) by lia;
    rewrite Z.pow_succ_r by (destruct p; cbn [Pos.size_nat]; lia); lia.
Qed.
Lemma num_bits_pos p : (1 <= num_bits p)%nat.
Proof. unfold num_bits. destruct p; cbn; lia. Qed.
Lemma num_bits_upper p : Zpos p < 2 ^ Z.of_nat (num_bits p).
Proof. apply size_nat_bounds. Qed.
Lemma num_bits_lower p : 2 ^ (Z.of_nat (num_bits p) - 1) <= Zpos p.
Proof. apply size_nat_bounds. Qed.

Lemma num_limbs_bound p : 2 * Zpos p <= 2 ^ (64 * Z.of_nat (num_limbs p)).
Proof.
  unfold num_limbs. set (L := Z.log2_up (2 * Z.pos p)).
  assert (0 <= L) by apply Z.log2_up_nonneg.
  rewrite Z2Nat.id by (apply Z.div_pos; lia).
  transitivity (2 ^ L); [apply Z.log2_up_spec; lia|].
  apply Z.pow_le_mono_r; [lia|].
  pose proof (Z.div_mod (L + 63) 64). pose proof (Z.mod_pos_bound (L + 63) 64). lia.
Qed.
(** One spare bit; [<=] covers p a power of two. *)
Lemma num_bits_limbs p : (num_bits p <= 64 * num_limbs p)%nat.
Proof.
  pose proof (num_limbs_bound p) as H. pose proof (num_bits_lower p) as H2.
  pose proof (num_bits_pos p) as Hpos.
  destruct (Nat.le_gt_cases (num_bits p) (64 * num_limbs p)) as [|Hge]; auto. exfalso.
  assert (2 ^ (64 * Z.of_nat (num_limbs p)) <= 2 ^ (Z.of_nat (num_bits p) - 1))
    by (apply Z.pow_le_mono_r; lia).
  lia.
Qed.
Lemma num_bits_limbs_odd p : (1 < Zpos p) -> Z.odd (Zpos p) = true -> (num_bits p < 64 * num_limbs p)%nat.
Proof.
  intros H1 Ho.
  pose proof (num_limbs_bound p) as H. pose proof (num_bits_lower p) as H2.
  pose proof (num_bits_pos p) as Hpos.
  destruct (Nat.lt_ge_cases (num_bits p) (64 * num_limbs p)) as [|Hge]; auto. exfalso.
  assert (H3 : 2 * Z.pos p <= 2 ^ Z.of_nat (num_bits p)).
  { etransitivity; [exact H|]. apply Z.pow_le_mono_r; lia. }
  assert (E : 2 ^ Z.of_nat (num_bits p) = 2 * 2 ^ (Z.of_nat (num_bits p) - 1)).
  { rewrite <- Z.pow_succ_r by lia. f_equal; lia. }
  assert (EQ : Z.pos p = 2 ^ (Z.of_nat (num_bits p) - 1)) by lia.
  rewrite EQ in Ho. destruct (Z.eq_dec (Z.of_nat (num_bits p) - 1) 0) as [E0|E0].
  - rewrite E0 in EQ. cbn in EQ. lia.
  - rewrite Z.odd_pow in Ho by lia. discriminate.
Qed.

Lemma iterbit_le_bits {p} (a : Num p) : iterbit_le a = bits_of (64 * num_limbs p) (nval a).
Proof. reflexivity. Qed.
Lemma nval_lt_limbs {p} (a : Num p) : nval a < 2 ^ Z.of_nat (64 * num_limbs p).
Proof.
  pose proof (nval_range a). pose proof (num_limbs_bound p).
  replace (Z.of_nat (64 * num_limbs p)) with (64 * Z.of_nat (num_limbs p)) by lia. lia.
Qed.
Lemma bval_iterbit {p} (a : Num p) : bval (iterbit_le a) = nval a.
Proof.
  rewrite iterbit_le_bits, bval_bits_of. apply Z.mod_small.
  split; [apply nval_range|apply nval_lt_limbs].
Qed.

(** The iterator of the code yields [iterbit_le]. *)
Lemma limb_bit z n i :
  0 <= z -> (i < n * 64)%nat ->
  exists w, nth_error (limbs_of n z) (i / 64)%nat = Some w /\
    (0 <? Z.land w (Z.shiftl 1 (Z.of_nat (i - 64 * (i / 64))))) = Z.testbit z (Z.of_nat i).
Proof.
  intros Hz Hi. assert (Hq : (i / 64 < n)%nat) by (apply Nat.div_lt_upper_bound; lia).
  unfold limbs_of. rewrite nth_error_map, (nth_error_nth' _ 0%nat) by (rewrite seq_length; lia).
  rewrite seq_nth by lia. eexists; split; [reflexivity|]. cbn [Nat.add].
  set (q := (i / 64)%nat) in *. set (r := (i - 64 * q)%nat).
  assert (Hr : (r < 64)%nat).
  { unfold r, q. pose proof (Nat.div_mod i 64). pose proof (Nat.mod_upper_bound i 64). lia. }
  assert (Hi' : Z.of_nat i = Z.of_nat r + 64 * Z.of_nat q).
  { unfold r. pose proof (Nat.mul_div_le i 64). fold q in H. lia. }
  set (w := (z / 2 ^ (64 * Z.of_nat q)) mod 2 ^ 64).
  assert (Hb : Z.testbit w (Z.of_nat r) = Z.testbit z (Z.of_nat i)).
  { unfold w. rewrite Z.mod_pow2_bits_low by lia. rewrite Z.div_pow2_bits by lia. f_equal. lia. }
  assert (Hland : Z.land w (Z.shiftl 1 (Z.of_nat r)) = if Z.testbit w (Z.of_nat r) then 2 ^ Z.of_nat r else 0).
  { rewrite Z.shiftl_1_l. apply Z.bits_inj'. intros m Hm. rewrite Z.land_spec, Z.pow2_bits_eqb by lia.
    destruct (Z.eqb_spec (Z.of_nat r) m) as [<-|Hne].
    - destruct (Z.testbit w (Z.of_nat r)); cbn; [rewrite Z.pow2_bits_eqb by lia; now rewrite Z.eqb_refl|now rewrite Z.bits_0].
    - rewrite andb_false_r. destruct (Z.testbit w (Z.of_nat r)); [rewrite Z.pow2_bits_eqb by lia|now rewrite Z.bits_0].
      symmetry. now apply Z.eqb_neq. }
  rewrite Hland, Hb. assert (0 < 2 ^ Z.of_nat r) by (apply Z.pow_pos_nonneg; lia).
  destruct (Z.testbit z (Z.of_nat i)); [apply Z.ltb_lt; lia|reflexivity].
Qed.

Lemma limbs_of_length n z : length (limbs_of n z) = n.
Proof. unfold limbs_of. now rewrite map_length, seq_length. Qed.

Lemma bititer_collect_from z n : 0 <= z ->
  forall k i fuel, (i + k = n * 64)%nat -> (k < fuel)%nat ->
  bititer_collect fuel (mkBitIt (limbs_of n z) i (n * 64)) =
  Ok (map (fun j => Z.testbit z (Z.of_nat j)) (seq i k)).
Proof.
  intros Hz. induction k as [|k IH]; intros i fuel Hk Hf.
  - destruct fuel as [|fuel]; [lia|]. cbn [bititer_collect]. unfold bititer_next. cbn [it_n it_sz].
    replace i with (n * 64)%nat by lia. rewrite Nat.eqb_refl. reflexivity.
  - destruct fuel as [|fuel]; [lia|]. cbn [bititer_collect]. unfold bititer_next. cbn [it_n it_sz it_t].
    rewrite (proj2 (Nat.eqb_neq i (n * 64))) by lia.
    destruct (limb_bit z n i) as [w [Hw Hb]]; [lia|lia|]. cbv zeta. rewrite Hw. cbn [unwrap rbind fst snd].
    rewrite IH by lia. cbn [rbind]. rewrite Hb. reflexivity.
Qed.

Theorem iterbit_le_collect {p} (a : Num p) :
  bititer_collect (S (64 * num_limbs p)) (bititer_new (into_repr a)) = Ok (iterbit_le a).
Proof.
  unfold bititer_new, into_repr. rewrite limbs_of_length.
  rewrite (bititer_collect_from (nval a) (num_limbs p)) with (k := (64 * num_limbs p)%nat);
    [reflexivity|apply nval_range|lia|lia].
Qed.
