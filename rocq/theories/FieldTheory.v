(** Field laws of [Num p] for prime [p]: Fermat, inverses, squares. *)

From Coq Require Import Znumtheory Permutation FinFun.
From Verif Require Import Zp.
Open Scope Z_scope.

Definition is_square {p} (a : Num p) : Prop := exists b : Num p, nmul b b = a.

Section Ring.
Context {p : positive}.
Notation F := (Num p).
Add Ring Fring : (@num_ring p) (morphism (@num_morph p), constants [num_cst], power_tac (@num_power p) [num_pow_cst]).
Open Scope num_scope.

Lemma npow_add (a : F) m n : (a ^ (m + n) = a ^ m * a ^ n)%num.
Proof.
  assert (E : forall k, a ^ k = pow_N n1 nmul a k).
  { intros k. apply (rpow_pow_N (@num_power p)). }
  rewrite !E. destruct m, n; cbn [N.add pow_N]; try ring.
  assert (S : forall q, pow_pos nmul a (Pos.succ q) = a * pow_pos nmul a q).
  { induction q; cbn [Pos.succ pow_pos]; rewrite ?IHq; ring. }
  revert p1. induction p0 using Pos.peano_ind; intros q.
  - rewrite Pos.add_1_l, S. reflexivity.
  - rewrite Pos.add_succ_l, !S, IHp0. ring.
Qed.

Lemma npow_0 (a : F) : a ^ 0 = 1.
Proof. reflexivity. Qed.
Lemma npow_1 (a : F) : a ^ 1 = a.
Proof. reflexivity. Qed.
Lemma npow_succ (a : F) n : a ^ (N.succ n) = a * a ^ n.
Proof. rewrite <- N.add_1_l, npow_add. reflexivity. Qed.
Lemma npow_mul_l (a b : F) n : (a * b) ^ n = a ^ n * b ^ n.
Proof.
  induction n using N.peano_ind; [rewrite !npow_0; ring|].
  rewrite !npow_succ, IHn. ring.
Qed.
Lemma npow_one n : (n1 : F) ^ n = 1.
Proof. induction n using N.peano_ind; [reflexivity|]. rewrite npow_succ, IHn. ring. Qed.
Lemma npow_mul (a : F) m n : a ^ (m * n) = (a ^ m) ^ n.
Proof.
  induction n using N.peano_ind.
  - rewrite N.mul_0_r. reflexivity.
  - rewrite N.mul_succ_r, npow_add, IHn, npow_succ. ring.
Qed.

(** All field elements, as a list (never computed). *)
Definition all_nums : list F := map (fun n => num (Z.of_nat n)) (seq 0 (Pos.to_nat p)).

Lemma all_nums_length : length all_nums = Pos.to_nat p.
Proof. unfold all_nums. now rewrite map_length, seq_length. Qed.

Lemma in_all_nums (a : F) : In a all_nums.
Proof.
  unfold all_nums. apply in_map_iff. exists (Z.to_nat (nval a)).
  pose proof (nval_range a). split.
  - rewrite Z2Nat.id by lia. apply num_nval.
  - apply in_seq. lia.
Qed.

Lemma nodup_all_nums : NoDup all_nums.
Proof.
  unfold all_nums. 
  assert (H : forall k m, (m + k <= Pos.to_nat p)%nat ->
     NoDup (map (fun n => @num p (Z.of_nat n)) (seq m k))).
  { induction k; intros m Hm; cbn; constructor.
    - rewrite in_map_iff. intros [n [E Hn]]. apply in_seq in Hn.
      apply (f_equal nval) in E. rewrite !nval_num_small in E by lia. lia.
    - apply IHk. lia. }
  apply H. lia.
Qed.

Lemma one_neq_zero : (1 < Zpos p)%Z -> (n1 : F) <> n0.
Proof. intros H E. apply (f_equal nval) in E. unfold n1, n0 in E.
  rewrite !nval_num_small in E by lia. discriminate. Qed.
End Ring.

Section PrimeField.
Context {p : positive} (Hp : prime (Zpos p)).
Notation F := (Num p).
Add Ring Fring2 : (@num_ring p) (morphism (@num_morph p), constants [num_cst], power_tac (@num_power p) [num_pow_cst]).
Open Scope num_scope.

Lemma prime_gt1 : (1 < Zpos p)%Z.
Proof. destruct Hp; lia. Qed.

Lemma n1_neq_n0 : (n1 : F) <> n0.
Proof. apply one_neq_zero, prime_gt1. Qed.

Lemma nmul_integral (a b : F) : a * b = 0 -> a = 0 \/ b = 0.
Proof.
  intros H. apply (f_equal nval) in H. unfold nmul in H. rewrite nval_num in H.
  change (nval n0) with 0%Z in H.
  apply Z.mod_divide in H; [|lia].
  apply prime_mult in H; [|exact Hp].
  destruct H as [H|H]; [left|right]; apply num_eq; change (nval n0) with 0%Z.
  - pose proof (nval_range a). apply Zdivide_mod in H. rewrite Z.mod_small in H; lia.
  - pose proof (nval_range b). apply Zdivide_mod in H. rewrite Z.mod_small in H; lia.
Qed.

Lemma nmul_nonzero (a b : F) : a <> 0 -> b <> 0 -> a * b <> 0.
Proof. intros Ha Hb H. apply nmul_integral in H. tauto. Qed.

Lemma nmul_cancel_l (a b c : F) : a <> 0 -> a * b = a * c -> b = c.
Proof.
  intros Ha H. assert (E : a * (b - c) = 0) by (replace (a * (b - c)) with (a * b - a * c) by ring; rewrite H; ring).
  apply nmul_integral in E as [E|E]; [contradiction|].
  replace b with ((b - c) + c) by ring. rewrite E. ring.
Qed.

Definition nonzeros : list F := filter (fun a => negb (nis_zero a)) all_nums.

Lemma in_nonzeros a : In a nonzeros <-> a <> 0.
Proof.
  unfold nonzeros. rewrite filter_In, <- nis_zero_neq. 
  split; [intros [_ H] | intros H; split; [apply in_all_nums|]].
  - now apply negb_true_iff in H.
  - now rewrite H.
Qed.

Lemma nodup_nonzeros : NoDup nonzeros.
Proof. apply NoDup_filter, nodup_all_nums. Qed.

Lemma nonzeros_length : length nonzeros = Nat.pred (Pos.to_nat p).
Proof.
  assert (H : Permutation all_nums (0 :: nonzeros)).
  { apply NoDup_Permutation.
    - apply nodup_all_nums.
    - constructor; [|apply nodup_nonzeros]. rewrite in_nonzeros. tauto.
    - intros x. split; intros H; [|apply in_all_nums].
      destruct (num_eq_dec x 0); [left; auto | right; now apply in_nonzeros]. }
  apply Permutation_length in H. rewrite all_nums_length in H. cbn in H. lia.
Qed.

Definition nprod (l : list F) : F := fold_right nmul 1 l.

Lemma nprod_perm l l' : Permutation l l' -> nprod l = nprod l'.
Proof. unfold nprod. induction 1; cbn; [reflexivity | now rewrite IHPermutation | ring | congruence]. Qed.

Lemma nprod_map_mul a l : nprod (map (nmul a) l) = a ^ (N.of_nat (length l)) * nprod l.
Proof.
  induction l as [|x l IH].
  - cbn. rewrite npow_0. ring.
  - cbn [map nprod fold_right length]. fold (nprod (map (nmul a) l)). fold (nprod l).
    rewrite IH, Nat2N.inj_succ, npow_succ. ring.
Qed.

Lemma nprod_nonzero l : (forall x, In x l -> x <> 0) -> nprod l <> 0.
Proof.
  induction l as [|x l IH]; intros H; cbn.
  - apply n1_neq_n0.
  - apply nmul_nonzero; [apply H; left; auto | apply IH; intros; apply H; right; auto].
Qed.

Theorem fermat (a : F) : a <> 0 -> a ^ (Z.to_N (Zpos p - 1)) = 1.
Proof.
  intros Ha.
  assert (P : Permutation (map (nmul a) nonzeros) nonzeros).
  { apply NoDup_Permutation_bis.
    - apply Injective_map_NoDup; [|apply nodup_nonzeros].
      intros x y Hxy. exact (nmul_cancel_l a x y Ha Hxy).
    - rewrite map_length. lia.
    - intros y Hy. apply in_map_iff in Hy as [x [<- Hx]].
      apply in_nonzeros in Hx. apply in_nonzeros. now apply nmul_nonzero. }
  apply nprod_perm in P. rewrite nprod_map_mul in P.
  assert (N0 : nprod nonzeros <> 0).
  { apply nprod_nonzero. intros x Hx. now apply in_nonzeros. }
  apply (nmul_cancel_l (nprod nonzeros)); auto.
  rewrite nonzeros_length in P.
  replace (Z.to_N (Z.pos p - 1)) with (N.of_nat (Nat.pred (Pos.to_nat p))) by lia.
  etransitivity; [|etransitivity; [exact P|]]; ring.
Qed.

Lemma finv_l (a : F) : a <> 0 -> finv a * a = 1.
Proof.
  intros Ha. unfold finv. rewrite (proj2 (nis_zero_neq a) Ha).
  pose proof (fermat a Ha) as H. pose proof prime_gt1.
  replace (Z.to_N (Z.pos p - 1)) with (N.succ (Z.to_N (Z.pos p - 2))) in H by lia.
  rewrite npow_succ in H. rewrite <- H. ring.
Qed.

Lemma finv_0 : finv 0 = (0 : F).
Proof. reflexivity. Qed.

Lemma num_field : field_theory n0 n1 nadd nmul nsub nneg fdiv finv (@eq F).
Proof.
  constructor.
  - apply num_ring.
  - apply n1_neq_n0.
  - reflexivity.
  - apply finv_l.
Qed.

Lemma ninv_ok (a : F) : a <> 0 -> ninv a = Ok (finv a).
Proof. intros H. unfold ninv. now rewrite (proj2 (nis_zero_neq a) H). Qed.
Lemma ndiv_ok (a b : F) : b <> 0 -> ndiv a b = Ok (a / b).
Proof. intros H. unfold ndiv. now rewrite ninv_ok. Qed.
End PrimeField.

Section Squares.
Context {p : positive} (Hp : prime (Zpos p)).
Notation F := (Num p).
Add Field Ffield3 : (num_field Hp) (morphism (@num_morph p), constants [num_cst], power_tac (@num_power p) [num_pow_cst]).
Open Scope num_scope.

Lemma square_roots (a b : F) : a * a = b * b -> a = b \/ a = - b.
Proof.
  intros H. assert (E : (a - b) * (a + b) = 0) by (replace ((a - b) * (a + b)) with (a * a - b * b) by ring; rewrite H; ring).
  apply (nmul_integral Hp) in E as [E|E]; [left|right].
  - replace a with ((a - b) + b) by ring. rewrite E. ring.
  - replace a with ((a + b) - b) by ring. rewrite E. ring.
Qed.

Lemma is_square_mul (a b : F) : is_square a -> is_square b -> is_square (a * b).
Proof. intros [x <-] [y <-]. exists (x * y). ring. Qed.

Lemma is_square_inv (a : F) : is_square a -> is_square (finv a).
Proof.
  intros [x <-]. destruct (num_eq_dec x 0) as [->|H].
  - exists 0. replace ((n0:F) * 0) with (n0:F) by ring. rewrite finv_0. ring.
  - exists (finv x). field. auto.
Qed.

Lemma is_square_sq (a : F) : is_square (a * a).
Proof. now exists a. Qed.

Lemma is_square_cancel (a b : F) : a <> 0 -> is_square a -> is_square (a * b) -> is_square b.
Proof.
  intros Ha Hs Hm. replace b with (finv a * (a * b)) by (field; auto).
  apply is_square_mul; auto using is_square_inv.
Qed.

Lemma square_in_dec (a : F) : {is_square a} + {~ is_square a}.
Proof.
  destruct (in_dec num_eq_dec a (map (fun x => x * x) all_nums)) as [H|H].
  - left. apply in_map_iff in H as [x [H _]]. now exists x.
  - right. intros [x Hx]. apply H. apply in_map_iff. exists x. auto using in_all_nums.
Qed.

Definition issq (a : F) : bool := if square_in_dec a then true else false.
Definition sqs : list F := filter issq nonzeros.
Definition nsqs : list F := filter (fun a => negb (issq a)) nonzeros.

Lemma in_sqs a : In a sqs <-> a <> 0 /\ is_square a.
Proof.
  unfold sqs, issq. rewrite filter_In, (in_nonzeros).
  destruct (square_in_dec a); intuition congruence.
Qed.
Lemma in_nsqs a : In a nsqs <-> a <> 0 /\ ~ is_square a.
Proof.
  unfold nsqs, issq. rewrite filter_In, (in_nonzeros).
  destruct (square_in_dec a); intuition (cbn in *; congruence).
Qed.

Lemma sqs_nsqs_length : (length sqs + length nsqs)%nat = length (@nonzeros p).
Proof.
  unfold sqs, nsqs. induction (@nonzeros p) as [|x l IH]; cbn; auto.
  destruct (issq x); cbn; lia.
Qed.

Lemma nval_neg (a : F) : a <> 0 -> nval (- a) = (Zpos p - nval a)%Z.
Proof.
  intros H. unfold nneg. rewrite nval_num.
  pose proof (nval_range a).
  assert (nval a <> 0%Z) by (intros E; apply H, num_eq; exact E).
  replace (- nval a)%Z with ((Zpos p - nval a) + (-1) * Zpos p)%Z by lia.
  rewrite Z.mod_add by lia. apply Z.mod_small. lia.
Qed.

Lemma sqs_large : (length (@nonzeros p) <= 2 * length sqs)%nat.
Proof.
  set (f := fun x : F => (x * x, (2 * nval x <? Zpos p)%Z)).
  assert (I : (length (map f nonzeros) <= length (list_prod sqs [true; false]))%nat).
  { apply NoDup_incl_length.
    - assert (G : forall l, NoDup l -> (forall x, In x l -> x <> 0) -> NoDup (map f l)).
      { induction l as [|x l IH]; intros Hn H0; cbn; constructor.
        - rewrite in_map_iff. intros [y [E Hy]]. inversion Hn as [|? ? Hx Hl]; subst.
          pose proof (f_equal fst E) as E1. pose proof (f_equal snd E) as E2. cbn [fst snd f] in E1, E2. clear E.
          assert (x <> 0) by (apply H0; left; auto).
          apply square_roots in E1 as [->| ->]; [contradiction|].
          rewrite nval_neg in E2 by auto. pose proof (nval_range x).
          assert (nval x <> 0%Z) by (intros E; apply H, num_eq; exact E).
          destruct (Z.ltb_spec (2 * (Zpos p - nval x)) (Zpos p)),
                   (Z.ltb_spec (2 * nval x) (Zpos p)); try discriminate; try lia.
          assert (E : Zpos p = (2 * nval x)%Z) by lia.
          destruct (Z.eq_dec (nval x) 1) as [E3|E3].
          + apply Hx. replace (- x) with x in Hy; auto.
            apply num_eq. rewrite nval_neg by auto. lia.
          + assert (D : (2 | Zpos p)%Z) by (exists (nval x); lia).
            apply prime_divisors in D; auto. lia.
        - inversion Hn; apply IH; auto. intros; apply H0; right; auto. }
      apply G; [apply nodup_nonzeros | intros x Hx; now apply in_nonzeros].
    - intros [s b] H. apply in_map_iff in H as [x [E Hx]]. pose proof (f_equal fst E) as E1. pose proof (f_equal snd E) as E2. cbn [fst snd f] in E1, E2. subst s b.
      apply in_prod; [|destruct (_ <? _)%Z; cbn; auto].
      apply in_sqs. apply in_nonzeros in Hx. split; [now apply nmul_nonzero | now exists x]. }
  rewrite map_length, prod_length in I. cbn [length] in I. lia.
Qed.

(** The product of two non-squares is a square. *)
Theorem nonsquare_mul (a b : F) : ~ is_square a -> ~ is_square b -> is_square (a * b).
Proof.
  intros Ha Hb.
  assert (a <> 0) by (intros ->; apply Ha; exists 0; ring).
  assert (b <> 0) by (intros ->; apply Hb; exists 0; ring).
  assert (L : (length nsqs <= length (map (nmul a) sqs))%nat).
  { rewrite map_length. pose proof sqs_nsqs_length. pose proof sqs_large. lia. }
  assert (I : incl (map (nmul a) sqs) nsqs).
  { intros y Hy. apply in_map_iff in Hy as [x [<- Hx]]. apply in_sqs in Hx as [Hx Hs].
    apply in_nsqs. split; [now apply nmul_nonzero|].
    intros Hm. apply Ha. replace (a * x) with (x * a) in Hm by ring.
    eapply is_square_cancel; eauto. }
  assert (N : NoDup (map (nmul a) sqs)).
  { apply Injective_map_NoDup; [|apply NoDup_filter, nodup_nonzeros].
    intros x y E. exact (nmul_cancel_l Hp a x y H E). }
  assert (In b (map (nmul a) sqs)) as Hin.
  { apply (NoDup_length_incl N L I). now apply in_nsqs. }
  apply in_map_iff in Hin as [s [<- Hs]]. apply in_sqs in Hs as [_ [r <-]].
  exists (a * r). ring.
Qed.

Lemma square_mul_nonsquare (a b : F) : a <> 0 -> is_square a -> ~ is_square b -> ~ is_square (a * b).
Proof. intros Ha Hs Hb Hm. apply Hb. eapply is_square_cancel; eauto. Qed.

(** Euler: a computation that refutes squareness. *)
Lemma euler_nonsquare (a : F) :
  Zodd (Zpos p) -> a ^ (Z.to_N ((Zpos p - 1) / 2)) <> 1 -> a <> 0 -> ~ is_square a.
Proof.
  intros Ho Hne H0 [b <-]. apply Hne. 
  assert (b <> 0) by (intros ->; apply H0; ring).
  replace (b * b) with (b ^ 2) by ring. rewrite <- npow_mul.
  rewrite <- (fermat Hp b H). f_equal.
  apply Zodd_ex in Ho as [k Hk]. rewrite Hk.
  replace (2 * k + 1 - 1)%Z with (k * 2)%Z by lia. rewrite Z.div_mul by lia. lia.
Qed.
End Squares.
