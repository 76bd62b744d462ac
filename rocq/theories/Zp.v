(** The prime fields of /repo: [Num<T: Field>] (src/native/num.rs:26-27).

    The derive macro of the [ff] crate gives each field a modulus; the model
    takes the modulus [p] as a parameter and represents an element by its
    canonical integer.  (The crate stores Montgomery limbs; that representation
    is not visible through the API and is not modelled.) *)

From Coq Require Export ZArith NArith List Bool Lia Ring Field NArithRing.
From Coq Require Import Znumtheory Eqdep_dec Zpow_facts.
From Verif Require Export Res.
Export ListNotations.
Open Scope Z_scope.

Definition in_range (p : positive) (z : Z) : bool := (0 <=? z) && (z <? Zpos p).

Record Num (p : positive) : Type := mkNum {
  nval : Z;                                  (* canonical representative *)
  nval_ok : in_range p nval = true
}.
Arguments mkNum {p} nval nval_ok.
Arguments nval {p} n.
Arguments nval_ok {p} n.

Lemma mod_in_range (p : positive) (z : Z) : in_range p (z mod Zpos p) = true.
Proof.
  unfold in_range. pose proof (Z.mod_pos_bound z (Zpos p) eq_refl).
  apply andb_true_intro; split; [apply Z.leb_le | apply Z.ltb_lt]; lia.
Qed.

(** Reduction of an integer: the meaning of every constant in the code. *)
Definition num {p : positive} (z : Z) : Num p := mkNum (z mod Zpos p) (mod_in_range p z).

Lemma num_eq {p} (a b : Num p) : nval a = nval b -> a = b.
Proof.
  destruct a as [a Ha], b as [b Hb]; cbn; intros ->.
  f_equal. apply UIP_dec, bool_dec.
Qed.

Lemma nval_range {p} (a : Num p) : 0 <= nval a < Zpos p.
Proof.
  destruct a as [a Ha]; cbn. unfold in_range in Ha.
  apply andb_prop in Ha as [H1 H2].
  apply Z.leb_le in H1. apply Z.ltb_lt in H2. lia.
Qed.

Lemma nval_num {p} z : nval (@num p z) = z mod Zpos p.
Proof. reflexivity. Qed.

Lemma nval_num_small {p} z : 0 <= z < Zpos p -> nval (@num p z) = z.
Proof. intros; rewrite nval_num, Z.mod_small; auto. Qed.

Lemma num_nval {p} (a : Num p) : num (nval a) = a.
Proof. apply num_eq. rewrite nval_num_small; auto using nval_range. Qed.

Lemma num_eq_mod {p} x y : x mod Zpos p = y mod Zpos p <-> @num p x = num y.
Proof.
  split; intros H.
  - apply num_eq; exact H.
  - apply (f_equal nval) in H; exact H.
Qed.

Section Ops.
Context {p : positive}.
Notation F := (Num p).

(** Num::zero, Num::one (num.rs:151-157), field operations delegated to the ff crate
    (num.rs:342-373, 417-424), double and square (num.rs:177-187). *)
Definition n0 : F := num 0.
Definition n1 : F := num 1.
Definition nadd (a b : F) : F := num (nval a + nval b).
Definition nsub (a b : F) : F := num (nval a - nval b).
Definition nmul (a b : F) : F := num (nval a * nval b).
Definition nneg (a : F) : F := num (- nval a).
Definition ndouble (a : F) : F := nadd a a.
Definition nsquare (a : F) : F := nmul a a.

(** PartialEq (num.rs:335-340), is_zero (num.rs:173-175). *)
Definition neqb (a b : F) : bool := nval a =? nval b.
Definition nis_zero (a : F) : bool := nval a =? 0.

Fixpoint npow_pos (a : F) (n : positive) : F :=
  match n with
  | xH => a
  | xO n' => nsquare (npow_pos a n')
  | xI n' => nmul a (nsquare (npow_pos a n'))
  end.
Definition npow (a : F) (n : N) : F :=
  match n with N0 => n1 | Npos n' => npow_pos a n' end.

(** The inverse in a field of prime order, as a total function; 0 is sent to
    0.  Used by specifications; the code's [inverse] is [ninv] below. *)
Definition finv (a : F) : F := if nis_zero a then n0 else npow a (Z.to_N (Zpos p - 2)).
Definition fdiv (a b : F) : F := nmul a (finv b).

(** Num::inverse (num.rs:163-166): panics on zero. *)
Definition ninv (a : F) : res F := if nis_zero a then Panic else Ok (finv a).
(** DivAssign / Div (num.rs:363-368, 405-412). *)
Definition ndiv (a b : F) : res F := i <-? ninv b ; Ok (nmul a i).

Lemma neqb_eq a b : neqb a b = true <-> a = b.
Proof.
  unfold neqb. rewrite Z.eqb_eq. split; [apply num_eq | intros ->; reflexivity].
Qed.

Lemma neqb_refl a : neqb a a = true.
Proof. apply neqb_eq; reflexivity. Qed.

Lemma neqb_neq a b : neqb a b = false <-> a <> b.
Proof. rewrite <- neqb_eq. destruct (neqb a b); split; congruence. Qed.

Lemma num_eq_dec (a b : F) : {a = b} + {a <> b}.
Proof. destruct (neqb a b) eqn:E; [left; apply neqb_eq | right; apply neqb_neq]; auto. Qed.

Lemma nval_zero : nval n0 = 0.
Proof. reflexivity. Qed.

Lemma nis_zero_eq a : nis_zero a = true <-> a = n0.
Proof.
  unfold nis_zero. rewrite Z.eqb_eq. split.
  - intros H; apply num_eq; rewrite H; reflexivity.
  - intros ->; reflexivity.
Qed.

Lemma nis_zero_neq a : nis_zero a = false <-> a <> n0.
Proof. rewrite <- nis_zero_eq. destruct (nis_zero a); split; congruence. Qed.

Lemma num_add x y : num (x + y) = nadd (num x) (num y).
Proof. apply num_eq; cbn. apply Z.add_mod; lia. Qed.
Lemma num_sub x y : num (x - y) = nsub (num x) (num y).
Proof. apply num_eq; cbn. apply Zminus_mod. Qed.
Lemma num_mul x y : num (x * y) = nmul (num x) (num y).
Proof. apply num_eq; cbn. apply Z.mul_mod; lia. Qed.
Lemma num_opp x : num (- x) = nneg (num x).
Proof.
  apply num_eq; cbn. replace (-x) with (0 - x) by lia.
  replace (- (x mod Z.pos p)) with (0 - (x mod Z.pos p)) by lia.
  now rewrite Zminus_mod_idemp_r.
Qed.

Lemma num_ring : ring_theory n0 n1 nadd nmul nsub nneg eq.
Proof.
  constructor; intros;
    repeat match goal with x : Num p |- _ => rewrite <- (num_nval x); revert x end;
    intros; unfold n0, n1;
    rewrite <- ?num_opp; repeat rewrite <- ?num_add, <- ?num_mul, <- ?num_sub, <- ?num_opp;
    f_equal; try ring.
Qed.

Lemma num_morph : ring_morph n0 n1 nadd nmul nsub nneg eq
                    0%Z 1%Z Z.add Z.mul Z.sub Z.opp Z.eqb (@num p).
Proof.
  constructor; intros; try reflexivity.
  - apply num_add.
  - apply num_sub.
  - apply num_mul.
  - apply num_opp.
  - apply Z.eqb_eq in H; subst; reflexivity.
Qed.

Lemma num_power : power_theory n1 nmul eq id npow.
Proof.
  constructor. intros r [|n]; [reflexivity|].
  cbn [npow id pow_N]. induction n; cbn [npow_pos pow_pos]; rewrite ?IHn; auto.
Qed.
End Ops.

Ltac num_cst t :=
  match t with
  | num ?z => match isZcst z with true => z | _ => constr:(NotConstant) end
  | n0 => constr:(0%Z)
  | n1 => constr:(1%Z)
  | _ => constr:(NotConstant)
  end.
Ltac num_pow_cst t := Ncst t.

Arguments n0 {p} : simpl never.
Arguments n1 {p} : simpl never.
Arguments num {p} z : simpl never.
Arguments nadd {p} a b : simpl never.
Arguments nsub {p} a b : simpl never.
Arguments nmul {p} a b : simpl never.
Arguments nneg {p} a : simpl never.
Arguments npow {p} a n : simpl never.
Arguments finv {p} a : simpl never.
Arguments fdiv {p} a b : simpl never.
Arguments ninv {p} a : simpl never.
Arguments ndiv {p} a b : simpl never.

Declare Scope num_scope.
Delimit Scope num_scope with num.
Bind Scope num_scope with Num.
Notation "0" := n0 : num_scope.
Notation "1" := n1 : num_scope.
Notation "a + b" := (nadd a b) : num_scope.
Notation "a - b" := (nsub a b) : num_scope.
Notation "a * b" := (nmul a b) : num_scope.
Notation "- a" := (nneg a) : num_scope.
Notation "a / b" := (fdiv a b) : num_scope.
Notation "a ^ n" := (npow a n%N) : num_scope.
