(** Commutative groups carried by a predicate, with integer multiples. *)

From Coq Require Import ZArith Znumtheory List Permutation Lia.
Import ListNotations.
Open Scope Z_scope.

Record ab_group {G : Type} (ok : G -> Prop) (add : G -> G -> G) (zero : G) (opp : G -> G) : Prop := mk_ab {
  ok_add : forall a b, ok a -> ok b -> ok (add a b);
  ok_zero : ok zero;
  ok_opp : forall a, ok a -> ok (opp a);
  gaddA : forall a b c, ok a -> ok b -> ok c -> add (add a b) c = add a (add b c);
  gaddC : forall a b, ok a -> ok b -> add a b = add b a;
  gadd0 : forall a, ok a -> add zero a = a;
  gaddN : forall a, ok a -> add (opp a) a = zero }.

Section Multiples.
Context {G : Type} (add : G -> G -> G) (zero : G) (opp : G -> G).
(** k-fold addition *)
Definition pmul (k : positive) (a : G) : G := Pos.iter (add a) zero k.
Definition zmul (z : Z) (a : G) : G :=
  match z with Z0 => zero | Zpos k => pmul k a | Zneg k => opp (pmul k a) end.
End Multiples.

Section Group.
Context {G : Type} {ok : G -> Prop} {add : G -> G -> G} {zero : G} {opp : G -> G}.
Hypothesis HG : ab_group ok add zero opp.
Notation pm := (pmul add zero).
Notation zm := (zmul add zero opp).
Infix "+g" := add (at level 50, left associativity).

Let oka := ok_add _ _ _ _ HG.
Let okz := ok_zero _ _ _ _ HG.
Let oko := ok_opp _ _ _ _ HG.
Local Hint Resolve oka okz oko : grp.

Lemma gadd0r a : ok a -> a +g zero = a.
Proof. intros H. rewrite (gaddC _ _ _ _ HG), (gadd0 _ _ _ _ HG); auto with grp. Qed.
Lemma gaddNr a : ok a -> a +g opp a = zero.
Proof. intros H. rewrite (gaddC _ _ _ _ HG), (gaddN _ _ _ _ HG); auto with grp. Qed.
Lemma gcancel a b c : ok a -> ok b -> ok c -> a +g b = a +g c -> b = c.
Proof.
  intros Ha Hb Hc E. apply (f_equal (add (opp a))) in E.
  rewrite <- !(gaddA _ _ _ _ HG), (gaddN _ _ _ _ HG), !(gadd0 _ _ _ _ HG) in E; auto with grp.
Qed.
Lemma gopp_unique a b : ok a -> ok b -> a +g b = zero -> b = opp a.
Proof.
  intros Ha Hb E. apply (gcancel a); auto with grp. rewrite E. symmetry. now apply gaddNr.
Qed.
Lemma gopp0 : opp zero = zero.
Proof. symmetry. apply gopp_unique; auto with grp. apply gadd0r; auto with grp. Qed.
Lemma goppK a : ok a -> opp (opp a) = a.
Proof. intros H. symmetry. apply gopp_unique; auto with grp. apply (gaddN _ _ _ _ HG); auto. Qed.
Lemma gaddACA a b c e : ok a -> ok b -> ok c -> ok e -> (a +g b) +g (c +g e) = (a +g c) +g (b +g e).
Proof.
  intros Ha Hb Hc He. rewrite !(gaddA _ _ _ _ HG); auto with grp. f_equal.
  rewrite <- !(gaddA _ _ _ _ HG) by auto with grp. f_equal. apply (gaddC _ _ _ _ HG); auto.
Qed.
Lemma goppD a b : ok a -> ok b -> opp (a +g b) = opp a +g opp b.
Proof.
  intros Ha Hb. symmetry. apply gopp_unique; auto with grp.
  rewrite gaddACA, !gaddNr; auto with grp. apply gadd0r; auto with grp.
Qed.
Lemma gsub_eq a b : ok a -> ok b -> a +g opp b = zero -> a = b.
Proof.
  intros Ha Hb E. apply gopp_unique in E; auto with grp.
  rewrite <- (goppK a), <- E, goppK by auto with grp. reflexivity.
Qed.

Lemma ok_pmul k a : ok a -> ok (pm k a).
Proof. intros H. unfold pmul. apply Pos.iter_invariant; auto with grp. Qed.
Lemma ok_zmul z a : ok a -> ok (zm z a).
Proof. intros H. destruct z; cbn; auto using ok_pmul with grp. Qed.
Local Hint Resolve ok_pmul ok_zmul : grp.

Lemma pmul_succ k a : pm (Pos.succ k) a = a +g pm k a.
Proof. apply Pos.iter_succ. Qed.
Lemma zmul_0 a : zm 0 a = zero. Proof. reflexivity. Qed.
Lemma zmul_1 a : ok a -> zm 1 a = a.
Proof. intros H. cbn. apply gadd0r; auto. Qed.
Lemma zmul_succ z a : ok a -> zm (Z.succ z) a = a +g zm z a.
Proof.
  intros H. destruct z as [|k|k].
  - cbn. reflexivity.
  - cbn [Z.succ Z.add zmul]. rewrite Pos.add_1_r. apply pmul_succ.
  - destruct (Pos.succ_pred_or k) as [->|E].
    + cbn. rewrite gadd0r, gaddNr; auto.
    + rewrite <- E. set (j := Pos.pred k).
      replace (Z.succ (Zneg (Pos.succ j))) with (Zneg j) by lia. cbn [zmul]. rewrite pmul_succ, goppD by auto with grp.
      rewrite <- (gaddA _ _ _ _ HG), gaddNr, (gadd0 _ _ _ _ HG); auto with grp.
Qed.
Lemma zmul_add m n a : ok a -> zm (m + n) a = zm m a +g zm n a.
Proof.
  intros H. revert m. apply Z.peano_ind.
  - rewrite Z.add_0_l. cbn [zmul]. now rewrite (gadd0 _ _ _ _ HG); auto with grp.
  - intros m IH. rewrite Z.add_succ_l, !zmul_succ, IH by auto. now rewrite (gaddA _ _ _ _ HG) by auto with grp.
  - intros m IH. apply (gcancel a); auto with grp.
    rewrite <- zmul_succ by auto. rewrite <- (gaddA _ _ _ _ HG) by auto with grp. rewrite <- zmul_succ by auto.
    rewrite Z.succ_pred, Z.add_pred_l, Z.succ_pred. exact IH.
Qed.
Lemma zmul_opp z a : ok a -> zm (- z) a = opp (zm z a).
Proof.
  intros H. apply gopp_unique; auto with grp. rewrite <- zmul_add by auto.
  now rewrite Z.add_opp_diag_r.
Qed.
Lemma zmul_sub m n a : ok a -> zm (m - n) a = zm m a +g opp (zm n a).
Proof. intros H. unfold Z.sub. now rewrite zmul_add, zmul_opp. Qed.
Lemma zmul_zero z : zm z zero = zero.
Proof.
  revert z. apply Z.peano_ind; auto.
  - intros z IH. rewrite zmul_succ, IH; auto with grp. apply gadd0r; auto with grp.
  - intros z IH. unfold Z.pred. rewrite zmul_add, IH; auto with grp. rewrite (gadd0 _ _ _ _ HG); auto with grp.
    cbn. rewrite gadd0r, gopp0; auto with grp.
Qed.
Lemma zmul_distr z a b : ok a -> ok b -> zm z (a +g b) = zm z a +g zm z b.
Proof.
  intros Ha Hb. revert z. apply Z.peano_ind.
  - cbn. now rewrite gadd0r; auto with grp.
  - intros z IH. rewrite !zmul_succ, IH by auto with grp. apply gaddACA; auto with grp.
  - intros z IH. apply (gcancel (a +g b)); auto with grp.
    rewrite <- zmul_succ, Z.succ_pred, IH by auto with grp.
    rewrite gaddACA by auto with grp. rewrite <- !zmul_succ, Z.succ_pred by auto. reflexivity.
Qed.
Lemma zmul_oppr z a : ok a -> zm z (opp a) = opp (zm z a).
Proof.
  intros H. apply gopp_unique; auto with grp. rewrite <- zmul_distr by auto with grp.
  now rewrite gaddNr, zmul_zero.
Qed.
Lemma zmul_mul m n a : ok a -> zm (m * n) a = zm m (zm n a).
Proof.
  intros H. revert m. apply Z.peano_ind; auto.
  - intros m IH. rewrite Z.mul_succ_l, zmul_add, IH, zmul_succ by auto with grp. apply (gaddC _ _ _ _ HG); auto with grp.
  - intros m IH. rewrite Z.mul_pred_l, zmul_sub, IH by auto. unfold Z.pred.
    rewrite zmul_add by auto with grp. f_equal. cbn. now rewrite gadd0r by auto with grp.
Qed.
Lemma zmul_2 a : ok a -> zm 2 a = a +g a.
Proof. intros H. cbn. now rewrite gadd0r. Qed.
Lemma zmul_m1 a : ok a -> zm (-1) a = opp a.
Proof. intros H. cbn. now rewrite gadd0r. Qed.

(** Multiples of an element killed by [l]. *)
Lemma zmul_mod l k a : ok a -> zm l a = zero -> zm (k mod l) a = zm k a.
Proof.
  intros H E.
  destruct (Z.eq_dec l 0) as [->|Hl]; [now rewrite Zmod_0_r|].
  rewrite (Z.div_mod k l Hl) at 2. rewrite zmul_add, (Z.mul_comm l), zmul_mul, E, zmul_zero by auto.
  rewrite (gadd0 _ _ _ _ HG); auto with grp.
Qed.
Lemma zmul_congr l j k a : ok a -> zm l a = zero -> j mod l = k mod l -> zm j a = zm k a.
Proof. intros H E M. rewrite <- (zmul_mod l j), <- (zmul_mod l k), M; auto. Qed.
Lemma zmul_gcd m n a : ok a -> zm m a = zero -> zm n a = zero -> zm (Z.gcd m n) a = zero.
Proof.
  intros H E1 E2. destruct (Z.gcd_bezout m n _ eq_refl) as [u [v <-]].
  rewrite zmul_add, !zmul_mul, E1, E2, !zmul_zero by auto. apply (gadd0 _ _ _ _ HG); auto with grp.
Qed.
Lemma zmul_order_prime l k a : ok a -> prime l -> zm l a = zero -> a <> zero -> zm k a = zero -> (l | k).
Proof.
  intros H Hl E N Ek. destruct (Zdivide_dec l k) as [D|D]; auto. exfalso. apply N.
  rewrite <- (zmul_1 a) by auto. replace 1 with (Z.gcd l k); [now apply zmul_gcd|].
  apply Zgcd_1_rel_prime. apply prime_rel_prime; auto.
Qed.
(** An element killed by 2^(k+1) but not by 2^k: its annihilators are multiples of 2^(k+1). *)
Lemma zmul_order_pow2 k n a : ok a -> 0 <= k -> zm (2 ^ (k + 1)) a = zero -> zm (2 ^ k) a <> zero ->
  zm n a = zero -> (2 ^ (k + 1) | n).
Proof.
  intros H Hk E N En. pose proof (zmul_gcd (2 ^ (k + 1)) n a H E En) as Eg.
  assert (Dg : (Z.gcd (2 ^ (k + 1)) n | 2 ^ (k + 1))) by apply Z.gcd_divide_l.
  assert (Hg : exists j, 0 <= j <= k + 1 /\ Z.gcd (2 ^ (k + 1)) n = 2 ^ j).
  { assert (X : forall q, 0 <= q -> forall g, 0 <= g -> (g | 2 ^ q) -> exists j, 0 <= j <= q /\ g = 2 ^ j).
    { clear. intros q Hq. pattern q. apply natlike_ind; auto; clear q Hq.
      - intros g Hg D. exists 0. split; [lia|]. change (2 ^ 0) with 1 in *. apply Z.divide_1_r_nonneg in D; auto.
      - intros q Hq IH g Hg D. rewrite Z.pow_succ_r in D by auto.
        destruct (Z.Even_or_Odd g) as [[h E]|[h E]].
        + subst g. apply Z.mul_divide_cancel_l in D; [|lia]. destruct (IH h ltac:(lia) D) as [j [Hj E]].
          exists (j + 1). split; [lia|]. rewrite Z.pow_add_r, E by lia. change (2 ^ 1) with 2. ring.
        + assert (R : rel_prime g 2).
          { apply rel_prime_sym, prime_rel_prime; [exact prime_2|]. intros [c Hc]. lia. }
          apply Gauss in D; auto. destruct (IH g Hg D) as [j [Hj E']]. exists j. split; [lia|auto]. }
    apply X; auto; [lia|apply Z.gcd_nonneg]. }
  destruct Hg as [j [Hj Ej]]. destruct (Z.eq_dec j (k + 1)) as [->|Nj].
  - rewrite <- Ej. apply Z.gcd_divide_r.
  - exfalso. apply N. replace k with (k - j + j) by lia. rewrite Z.pow_add_r, zmul_mul, <- Ej, Eg by (auto; lia).
    apply zmul_zero.
Qed.

(** Every element of a finite group is killed by its cardinality. *)
Definition gsum (l : list G) : G := fold_right add zero l.
Lemma ok_gsum l : Forall ok l -> ok (gsum l).
Proof. induction 1; cbn; auto with grp. Qed.
Lemma gsum_perm l l' : Permutation l l' -> Forall ok l -> gsum l = gsum l'.
Proof.
  induction 1 as [|x l l' H IH|x y l|l l' l'' H1 IH1 H2 IH2]; intros Hl; cbn; auto.
  - inversion Hl; subst. f_equal. now apply IH.
  - inversion Hl as [|? ? Hx Hl']; subst. inversion Hl'; subst.
    pose proof (ok_gsum l ltac:(auto)). fold (gsum l).
    rewrite <- !(gaddA _ _ _ _ HG) by auto with grp. f_equal. apply (gaddC _ _ _ _ HG); auto.
  - rewrite IH1 by auto. apply IH2. eapply Permutation_Forall; eauto.
Qed.
Lemma gsum_map_add a l : ok a -> Forall ok l -> gsum (map (add a) l) = zm (Z.of_nat (length l)) a +g gsum l.
Proof.
  intros Ha. induction 1 as [|x l Hx Hl IH].
  - cbn. symmetry. apply gadd0r; auto with grp.
  - change (a +g x +g gsum (map (add a) l) = zm (Z.of_nat (S (length l))) a +g (x +g gsum l)). rewrite IH.
    rewrite Nat2Z.inj_succ, zmul_succ by auto. apply gaddACA; auto with grp. now apply ok_gsum.
Qed.
Lemma group_card l a : NoDup l -> (forall x, ok x <-> In x l) -> ok a -> zm (Z.of_nat (length l)) a = zero.
Proof.
  intros Nd Hl Ha. assert (Fl : Forall ok l) by (apply Forall_forall; intros x; apply Hl).
  assert (Pl : Permutation (map (add a) l) l).
  { apply NoDup_Permutation_bis.
    - assert (X : forall q, Forall ok q -> NoDup q -> NoDup (map (add a) q)).
      { intros q Fq. induction 1 as [|x q Hx Hq IH]; cbn; [constructor|]. inversion Fq; subst.
        constructor; auto. intros Hin. apply in_map_iff in Hin. destruct Hin as [y [E Hy]].
        apply gcancel in E; auto; [|eapply Forall_forall; eauto]. subst; auto. }
      now apply X.
    - rewrite map_length. auto.
    - intros y Hy. apply in_map_iff in Hy. destruct Hy as [x [<- Hx]]. apply Hl. apply (ok_add _ _ _ _ HG); auto. now apply Hl. }
  apply (gcancel (gsum l)); auto using ok_gsum with grp.
  rewrite gadd0r by now apply ok_gsum. rewrite (gaddC _ _ _ _ HG) by auto using ok_gsum with grp.
  rewrite <- gsum_map_add by auto. apply gsum_perm; auto.
  eapply Permutation_Forall; [symmetry; exact Pl|auto].
Qed.
End Group.
