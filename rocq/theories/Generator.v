(** Generators of the multiplicative group of a prime field, from a full
    factorization of p - 1. *)

From Verif Require Export Zp FieldTheory.
From Coq Require Import ZArith Znumtheory Lia List.
From Verif Require Import Primality Certs.
Import ListNotations.
Open Scope Z_scope.

Lemma prime_divides_list q l : prime q -> Forall prime l -> (q | fold_right Z.mul 1 l) -> In q l.
Proof.
  intros Hq Hl. induction Hl as [|r l Hr Hl IH]; cbn [fold_right]; intros D.
  - destruct Hq as [H1 _]. apply Z.divide_1_r_nonneg in D; lia.
  - apply prime_mult in D; auto. destruct D as [D|D]; [left|right; auto].
    symmetry. apply prime_div_prime; auto.
Qed.

Definition gen_check (p g : Z) (l : list Z) : bool :=
  (fold_right Z.mul 1 l =? p - 1) && forallb (fun q => negb (powmM p g (Z.to_pos ((p - 1) / q)) =? 1)) l.

Section Gen.
Context {p : positive} (Hp : prime (Zpos p)).
Notation F := (Num p).
Variables (g : Z) (l : list Z).
Hypothesis Hl : Forall prime l.
Hypothesis Hg : (num g : F) <> n0.
Hypothesis Hc : gen_check (Zpos p) g l = true.

Lemma gen_order n : npow (num g : F) n = n1 -> (Zpos p - 1 | Z.of_N n).
Proof using Hp Hl Hg Hc.
  intros E. assert (P1 : 1 < Zpos p) by now destruct Hp.
  apply Bool.andb_true_iff in Hc as [C1 C2]. apply Z.eqb_eq in C1. rewrite forallb_forall in C2.
  pose proof (fermat Hp (num g) Hg) as Fe.
  pose proof (npow_gcd _ _ _ E Fe) as Eg. set (e := N.gcd n _) in *.
  assert (Ze : Z.of_N e = Z.gcd (Z.of_N n) (Zpos p - 1)).
  { unfold e. rewrite of_N_gcd. f_equal. lia. }
  pose proof (Z.gcd_divide_l (Z.of_N n) (Zpos p - 1)) as D1. pose proof (Z.gcd_divide_r (Z.of_N n) (Zpos p - 1)) as D2.
  rewrite <- Ze in D1, D2. destruct D2 as [k Hk].
  assert (K : 0 < k) by nia. destruct (Z.eq_dec k 1) as [->|Nk]; [rewrite Hk, Z.mul_1_l; exact D1|]. exfalso.
  destruct (prime_divisor k ltac:(lia)) as [q [Hq [m Hm]]].
  assert (Iq : In q l). { apply prime_divides_list; auto. rewrite C1, Hk, Hm. exists (m * Z.of_N e). ring. }
  specialize (C2 q Iq). apply Bool.negb_true_iff, Z.eqb_neq in C2. apply C2.
  assert (Q1 : 1 < q) by now destruct Hq.
  assert (Eq : (Zpos p - 1) / q = m * Z.of_N e). { rewrite Hk, Hm. replace (m * q * Z.of_N e) with (m * Z.of_N e * q) by ring. apply Z.div_mul. lia. }
  assert (E0 : 0 < Z.of_N e) by nia. assert (M0 : 0 < m) by nia.
  rewrite powmM_powm, powm_spec by lia. rewrite Eq, Z2Pos.id by nia.
  assert (X : npow (num g : F) (Z.to_N m * e) = n1) by (rewrite N.mul_comm, npow_mul, Eg; apply npow_one).
  rewrite npow_num in X. apply (f_equal nval) in X. unfold n1 in X. rewrite !nval_num, (Z.mod_small 1) in X by lia.
  rewrite <- X. do 2 f_equal. lia.
Qed.
Lemma gen_all (a : F) : a <> n0 -> exists n, a = npow (num g) n.
Proof using Hp Hl Hg Hc.
  intros Ha. assert (P1 : 1 < Zpos p) by now destruct Hp.
  pose (L := map (fun k => npow (num g : F) (N.of_nat k)) (seq 0 (Nat.pred (Pos.to_nat p)))).
  assert (NZ : forall n, npow (num g : F) n <> n0).
  { intros n. induction n as [|n IH] using N.peano_ind; [apply (n1_neq_n0 Hp)|]. rewrite npow_succ. now apply (nmul_nonzero Hp). }
  assert (In a L).
  { assert (I : incl (nonzeros : list F) L); [|apply I; now apply in_nonzeros].
    apply NoDup_length_incl.
    - unfold L. assert (X : forall q, NoDup q -> (forall x, In x q -> (x < Nat.pred (Pos.to_nat p))%nat) ->
          NoDup (map (fun k => npow (num g : F) (N.of_nat k)) q)).
      { induction 1 as [|x q Hx Hq IH]; cbn [map]; intros Hb; constructor; [|apply IH; intros; apply Hb; now right].
        intros Hin. apply in_map_iff in Hin. destruct Hin as [y [E Hy]].
        assert (W : forall u v, (u <= v)%nat -> (v < Nat.pred (Pos.to_nat p))%nat ->
                    npow (num g : F) (N.of_nat u) = npow (num g : F) (N.of_nat v) -> u = v).
        { intros u v Huv Hv Ew. replace (N.of_nat v) with (N.of_nat u + N.of_nat (v - u))%N in Ew by lia. rewrite npow_add in Ew.
          assert (Z1 : npow (num g : F) (N.of_nat (v - u)) = n1).
          { apply (nmul_cancel_l Hp (npow (num g) (N.of_nat u))); auto. rewrite <- Ew.
            pose proof (@num_ring p) as R. rewrite (Rmul_comm R). symmetry. apply (Rmul_1_l R). }
          apply gen_order in Z1. destruct Z1 as [c Hc']. assert (c = 0) by nia. lia. }
        pose proof (Hb x (or_introl eq_refl)). pose proof (Hb y (or_intror Hy)).
        assert (x = y). { destruct (Nat.le_ge_cases x y); [apply W; auto|symmetry; apply W; auto]. }
        now subst. }
      apply X; [apply seq_NoDup|]. intros x Hx. apply in_seq in Hx. lia.
    - unfold L. rewrite map_length, seq_length, nonzeros_length; auto.
    - intros x Hx. unfold L in Hx. apply in_map_iff in Hx. destruct Hx as [k [<- _]]. now apply in_nonzeros. }
  unfold L in H. apply in_map_iff in H. destruct H as [k [E _]]. eauto.
Qed.
End Gen.

Lemma prime_74149 : prime 74149.
Proof. apply trial_prime. vm_compute. reflexivity. Qed.
Lemma prime_12281 : prime 12281.
Proof. apply trial_prime. vm_compute. reflexivity. Qed.
Lemma prime_1036009829 : prime 1036009829.
Proof.
  apply (pocklington 1036009829 [(74149, 1, 2)]).
  - constructor; [exact prime_74149|]. constructor.
  - vm_compute. reflexivity.
Qed.
Lemma prime_35203613989421 : prime 35203613989421.
Proof.
  apply (pocklington 35203613989421 [(1036009829, 1, 2)]).
  - constructor; [exact prime_1036009829|]. constructor.
  - vm_compute. reflexivity.
Qed.
Lemma prime_12954929948106929 : prime 12954929948106929.
Proof.
  apply (pocklington 12954929948106929 [(35203613989421, 1, 2)]).
  - constructor; [exact prime_35203613989421|]. constructor.
  - vm_compute. reflexivity.
Qed.
Lemma prime_1710050753150114629 : prime 1710050753150114629.
Proof.
  apply (pocklington 1710050753150114629 [(12954929948106929, 1, 2)]).
  - constructor; [exact prime_12954929948106929|]. constructor.
  - vm_compute. reflexivity.
Qed.
(** The prime factors of bls_l - 1. *)
Definition bls_l_factors : list Z :=
  [2; 3; 12281; 203928654140967434528233; 255074062430788457494141376149; 1710050753150114629].
Lemma bls_l_factors_prime : Forall prime bls_l_factors.
Proof.
  constructor; [exact prime_2|]. constructor; [exact prime_3|]. constructor; [exact prime_12281|].
  constructor; [exact prime_203928654140967434528233|]. constructor; [exact prime_255074062430788457494141376149|].
  constructor; [exact prime_1710050753150114629|]. constructor.
Qed.
