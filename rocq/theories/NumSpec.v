(** Specifications of the operations and gadgets of num.rs and bool.rs. *)

From Coq Require Import Sorted.
From Coq Require Export Znumtheory.
From Verif Require Export Sem.

Section PureOps.
Context {p : positive}.
Notation F := (Num p).
Add Ring ns_ring : (@num_ring p) (morphism (@num_morph p), constants [num_cst], power_tac (@num_power p) [num_pow_cst]).
Open Scope num_scope.
Implicit Types (a b c : CNum p) (s : Index -> F).

Definition ccoef c i := coef (clc c) i.
Definition nonconst c : Prop := as_const c = None.

(** Evaluation. *)
Lemma ceval_add s a b : ceval s (cadd a b) = ceval s a + ceval s b.
Proof. unfold ceval, cadd; cbn [clc]. rewrite (merge_lc_eval s _ _ 1); intros; ring. Qed.
Lemma ceval_sub s a b : ceval s (csub a b) = ceval s a - ceval s b.
Proof. unfold ceval, csub; cbn [clc]. rewrite (merge_lc_eval s _ _ (nneg n1)); intros; ring. Qed.
Lemma ceval_neg s a : ceval s (cneg a) = - ceval s a.
Proof. unfold ceval, cneg; cbn [clc]. rewrite (leval_map s _ (nneg n1)); intros; ring. Qed.
Lemma ceval_add_cap s a b : ceval s (cadd_cap a b) = ceval s a + ceval s b.
Proof. unfold cadd_cap. destruct Nat.leb; rewrite ceval_add; ring. Qed.
Lemma ceval_add_rv s a b : ceval s (cadd_rv a b) = ceval s a + ceval s b.
Proof. unfold cadd_rv. rewrite ceval_add; ring. Qed.
Lemma ceval_const s v : s I0 = 1 -> ceval s (cconst v) = v.
Proof. intros H. unfold ceval, cconst; cbn [clc]. rewrite leval_cons, leval_nil, H. ring. Qed.
Lemma ceval_zero s : ceval s czero = 0.
Proof. unfold ceval, czero, cconst; cbn [clc]. rewrite leval_cons, leval_nil. ring. Qed.
Lemma ceval_one s : s I0 = 1 -> ceval s cone = 1.
Proof. intros. now apply ceval_const. Qed.
Lemma ceval_var s v i : ceval s (cvar v i) = s i.
Proof. unfold ceval, cvar; cbn [clc]. rewrite leval_cons, leval_nil. ring. Qed.
Lemma ceval_mul_num s a k : ceval s (cmul_num a k) = ceval s a * k.
Proof.
  unfold cmul_num. destruct nis_zero eqn:E.
  - apply nis_zero_eq in E; subst. rewrite ceval_zero. ring.
  - unfold ceval; cbn [clc]. rewrite (leval_map s (fun v => v * k) k); intros; ring.
Qed.
Lemma ceval_add_num s a k : s I0 = 1 -> ceval s (cadd_num a k) = ceval s a + k.
Proof. intros. unfold cadd_num. now rewrite ceval_add, ceval_const. Qed.
Lemma ceval_sub_num s a k : s I0 = 1 -> ceval s (csub_num a k) = ceval s a - k.
Proof. intros. unfold csub_num. now rewrite ceval_sub, ceval_const. Qed.
Lemma ceval_num_sub s a k : s I0 = 1 -> ceval s (num_csub k a) = k - ceval s a.
Proof. intros. unfold num_csub. now rewrite ceval_sub, ceval_const. Qed.

(** Coefficients. *)
Lemma ccoef_eval c i : ccoef c i = ceval (unitv i) c.
Proof. symmetry. apply leval_unit. Qed.
Lemma ccoef_add a b i : ccoef (cadd a b) i = ccoef a i + ccoef b i.
Proof. rewrite !ccoef_eval. apply ceval_add. Qed.
Lemma ccoef_add_cap a b i : ccoef (cadd_cap a b) i = ccoef a i + ccoef b i.
Proof. rewrite !ccoef_eval. apply ceval_add_cap. Qed.
Lemma ccoef_add_rv a b i : ccoef (cadd_rv a b) i = ccoef a i + ccoef b i.
Proof. rewrite !ccoef_eval. apply ceval_add_rv. Qed.
Lemma ccoef_sub a b i : ccoef (csub a b) i = ccoef a i - ccoef b i.
Proof. rewrite !ccoef_eval. apply ceval_sub. Qed.
Lemma ccoef_neg a i : ccoef (cneg a) i = - ccoef a i.
Proof. rewrite !ccoef_eval. apply ceval_neg. Qed.
Lemma ccoef_mul_num a k i : ccoef (cmul_num a k) i = ccoef a i * k.
Proof. rewrite !ccoef_eval. apply ceval_mul_num. Qed.
Lemma ccoef_const v i : i <> I0 -> ccoef (cconst v) i = 0.
Proof.
  intros H. unfold ccoef, cconst; cbn [clc]. rewrite coef_cons, coef_nil.
  rewrite (proj2 (ieqb_neq I0 i)); auto.
Qed.
Lemma ccoef_var v j i : ccoef (cvar v j) i = if ieqb j i then 1 else 0.
Proof.
  unfold ccoef, cvar; cbn [clc]. rewrite coef_cons, coef_nil. destruct ieqb; ring.
Qed.
Lemma ccoef_add_num a k i : i <> I0 -> ccoef (cadd_num a k) i = ccoef a i.
Proof. intros. unfold cadd_num. rewrite ccoef_add, ccoef_const by auto. ring. Qed.
Lemma ccoef_sub_num a k i : i <> I0 -> ccoef (csub_num a k) i = ccoef a i.
Proof. intros. unfold csub_num. rewrite ccoef_sub, ccoef_const by auto. ring. Qed.
Lemma ccoef_num_sub a k i : i <> I0 -> ccoef (num_csub k a) i = - ccoef a i.
Proof. intros. unfold num_csub. rewrite ccoef_sub, ccoef_const by auto. ring. Qed.

(** as_const. *)
Lemma as_const_eval s c v : s I0 = 1 -> as_const c = Some v -> ceval s c = v.
Proof.
  intros H1. unfold as_const, ceval. destruct (clc c) as [|[k w] [|? ?]].
  - intros E; inversion E. reflexivity.
  - destruct (ieqb k I0) eqn:E; [|discriminate]. apply ieqb_eq in E; subst.
    intros E; inversion E; subst. rewrite leval_cons, leval_nil, H1. ring.
  - discriminate.
Qed.

Lemma nonconst_coef c : canonical (clc c) -> nonconst c -> exists i, i <> I0 /\ ccoef c i <> 0.
Proof.
  unfold nonconst, as_const, ccoef, canonical. intros [Hs Hz].
  destruct (clc c) as [|[k w] [|[k2 w2] l]]; try discriminate.
  - destruct (ieqb k I0) eqn:E; [discriminate|]. intros _. apply ieqb_neq in E.
    exists k. split; auto. rewrite (coef_in_sorted _ k w Hs) by now left.
    intros ->. apply E. eapply Hz; eauto. now left.
  - intros _. exists k2.
    assert (L : ilt k k2) by (apply lsorted_cons in Hs as [_ Hs]; eapply Hs; now left).
    assert (N : k2 <> I0) by (intros ->; now apply not_ilt_I0 in L).
    split; auto. rewrite (coef_in_sorted _ k2 w2 Hs) by (right; now left).
    intros ->. apply N. eapply Hz; eauto. right; now left.
Qed.

Lemma coef_nonconst c i : i <> I0 -> ccoef c i <> 0 -> nonconst c.
Proof.
  unfold nonconst, as_const, ccoef. intros Hi Hc.
  destruct (clc c) as [|[k w] [|? ?]]; auto.
  - rewrite coef_nil in Hc. congruence.
  - rewrite coef_cons, coef_nil in Hc. destruct (ieqb k I0) eqn:E; auto.
    apply ieqb_eq in E; subst. rewrite (proj2 (ieqb_neq I0 i)) in Hc by auto. congruence.
Qed.

Lemma as_const_cconst (v : F) : as_const (cconst v) = Some v.
Proof. reflexivity. Qed.

Lemma as_const_lc c v : as_const c = Some v -> (clc c = [] /\ v = 0) \/ clc c = [(I0, v)].
Proof.
  unfold as_const. destruct (clc c) as [|[k w] [|? ?]].
  - intros E; inversion E; auto.
  - destruct (ieqb k I0) eqn:E; [|discriminate]. apply ieqb_eq in E; subst.
    intros E; inversion E; auto.
  - discriminate.
Qed.

Lemma merge_const g f x y (v w : F) :
  (forall y, f y = g 0 y) -> (forall x, g x 0 = x) ->
  (clc x = [] /\ v = 0) \/ clc x = [(I0, v)] ->
  (clc y = [] /\ w = 0) \/ clc y = [(I0, w)] ->
  let l := merge_lc g f (clc x) (clc y) in
  (l = [] /\ g v w = 0) \/ l = [(I0, g v w)].
Proof.
  intros Hf Hg [[-> ->]| ->] [[-> ->]| ->]; unfold merge_lc, merge_step; cbn.
  - left. rewrite Hg. auto.
  - right. now rewrite Hf.
  - right. now rewrite Hg.
  - destruct (nis_zero (g v w)) eqn:E; cbn; [left|right]; auto.
    split; auto. now apply nis_zero_eq.
Qed.

Lemma lc_as_const c v : (clc c = [] /\ v = 0) \/ clc c = [(I0, v)] -> as_const c = Some v.
Proof. unfold as_const. intros [[-> ->]| ->]; reflexivity. Qed.

Lemma as_const_add a b v w : as_const a = Some v -> as_const b = Some w -> as_const (cadd a b) = Some (v + w).
Proof.
  intros Ha%as_const_lc Hb%as_const_lc. apply lc_as_const. unfold cadd; cbn [clc].
  apply (merge_const nadd (fun v => v) a b v w); auto; intros; ring.
Qed.
Lemma as_const_sub a b v w : as_const a = Some v -> as_const b = Some w -> as_const (csub a b) = Some (v - w).
Proof.
  intros Ha%as_const_lc Hb%as_const_lc. apply lc_as_const. unfold csub; cbn [clc].
  apply (merge_const nsub nneg a b v w); auto; intros; ring.
Qed.
Lemma as_const_add_cap a b v w : as_const a = Some v -> as_const b = Some w -> as_const (cadd_cap a b) = Some (v + w).
Proof.
  intros. unfold cadd_cap. destruct Nat.leb; [now apply as_const_add|].
  replace (v + w) with (w + v) by ring. now apply as_const_add.
Qed.
Lemma as_const_add_num a v k : as_const a = Some v -> as_const (cadd_num a k) = Some (v + k).
Proof. intros. now apply as_const_add. Qed.
Lemma as_const_sub_num a v k : as_const a = Some v -> as_const (csub_num a k) = Some (v - k).
Proof. intros. now apply as_const_sub. Qed.
Lemma as_const_num_sub a v k : as_const a = Some v -> as_const (num_csub k a) = Some (k - v).
Proof. intros. now apply as_const_sub. Qed.
Lemma as_const_mul_num a v k : as_const a = Some v -> as_const (cmul_num a k) = Some (v * k).
Proof.
  intros Ha%as_const_lc. unfold cmul_num. destruct nis_zero eqn:E.
  - apply nis_zero_eq in E; subst. cbn. f_equal. ring.
  - apply lc_as_const; cbn [clc]. destruct Ha as [[-> ->]| ->]; cbn [map fst snd]; [left; split; [reflexivity|ring]|now right].
Qed.
Lemma as_const_neg a v : as_const a = Some v -> as_const (cneg a) = Some (- v).
Proof.
  intros Ha%as_const_lc. apply lc_as_const; cbn [cneg clc].
  destruct Ha as [[-> ->]| ->]; cbn [map fst snd]; [left; split; [reflexivity|ring]|now right].
Qed.

(** Well-formedness. *)
Lemma canonical_const v : @canonical p [(I0, v)].
Proof.
  split.
  - apply lsorted_cons. split; [constructor|]. intros ? ? [].
  - intros k w [E|[]] _. now inversion E.
Qed.
Lemma wf_const S0 (v : F) : In I0 (su S0) -> wf S0 (cconst v).
Proof.
  intros H. split; [apply canonical_const|].
  intros k w [E|[]]. inversion E; subst; auto.
Qed.
Lemma wf_var (Hp1 : (1 < Zpos p)%Z) S0 (v : option F) i : In i (su S0) -> wf S0 (cvar v i).
Proof.
  intros H. split.
  - split.
    + apply lsorted_cons. split; [constructor|]. intros ? ? [].
    + intros k w [E|[]] Hz. inversion E; subst.
      apply (f_equal snd) in E; cbn [snd] in E. 
      exfalso. apply (one_neq_zero Hp1). congruence.
  - intros k w [E|[]]. inversion E; subst; auto.
Qed.

Lemma wf_merge g f S0 a b vv :
  (forall v : F, f v = 0 -> v = 0) -> wf S0 a -> wf S0 b ->
  wf S0 (mkC vv (merge_lc g f (clc a) (clc b))).
Proof.
  intros Hf [[Ha1 Ha2] Ha3] [[Hb1 Hb2] Hb3].
  unfold wf, canonical; cbn [clc]. rewrite merge_lc_smerge by auto. repeat split.
  - now apply smerge_sorted.
  - apply smerge_zero; auto.
  - intros k v H. apply smerge_in in H as [[v' H]|[v' H]]; eauto.
Qed.
Lemma wf_add S0 a b : wf S0 a -> wf S0 b -> wf S0 (cadd a b).
Proof. intros. apply wf_merge; auto. Qed.
Lemma nneg_zero (v : F) : - v = 0 -> v = 0.
Proof. intros H. replace v with (- - v) by ring. rewrite H. ring. Qed.
Lemma wf_sub S0 a b : wf S0 a -> wf S0 b -> wf S0 (csub a b).
Proof. intros. apply wf_merge; auto using nneg_zero. Qed.
Lemma wf_add_cap S0 a b : wf S0 a -> wf S0 b -> wf S0 (cadd_cap a b).
Proof. intros. unfold cadd_cap. destruct Nat.leb; apply wf_add; auto. Qed.
Lemma wf_map (h : F -> F) S0 a vv :
  (forall v, h v = 0 -> v = 0) -> wf S0 a ->
  wf S0 (mkC vv (map (fun kv => (fst kv, h (snd kv))) (clc a))).
Proof.
  intros Hh [[H1 H2] H3]. unfold wf, canonical; cbn [clc]. repeat split.
  - now apply map_sorted.
  - intros k v Hin Hz. apply map_in in Hin as [v' [Hin ->]]. eauto.
  - intros k v Hin. apply map_in in Hin as [v' [Hin ->]]. eauto.
Qed.
Lemma wf_neg S0 a : wf S0 a -> wf S0 (cneg a).
Proof. apply wf_map, nneg_zero. Qed.

(** Equality of the operand forms (C04). *)
Lemma cadd_comm a b : canonical (clc a) -> canonical (clc b) -> cadd a b = cadd b a.
Proof.
  intros [Ha _] [Hb _]. unfold cadd. f_equal.
  - destruct (cvalue a), (cvalue b); cbn; auto. f_equal. ring.
  - rewrite !merge_lc_smerge by auto. now apply smerge_comm.
Qed.
Lemma cadd_cap_eq a b : canonical (clc a) -> canonical (clc b) -> cadd_cap a b = cadd a b.
Proof. intros. unfold cadd_cap. destruct Nat.leb; auto. now apply cadd_comm. Qed.
End PureOps.

Section FieldOps.
Context {p : positive} (Hp : prime (Zpos p)).
Notation F := (Num p).
Add Field ns_field : (num_field Hp) (morphism (@num_morph p), constants [num_cst], power_tac (@num_power p) [num_pow_cst]).
Open Scope num_scope.
Implicit Types (a b c : CNum p) (s : Index -> F) (md : mode).

Lemma wf_mul_num S0 a k : In I0 (su S0) -> wf S0 a -> wf S0 (cmul_num a k).
Proof.
  intros H0 Ha. unfold cmul_num. destruct nis_zero eqn:E; [now apply wf_const|].
  apply nis_zero_neq in E. apply (wf_map (fun v => v * k)); auto.
  intros v Hv. apply (nmul_integral Hp) in Hv as [Hv|Hv]; congruence.
Qed.

(** cdiv_num is multiplication by the inverse. *)
Lemma rmapM_div (l : lcT p) k : k <> 0 ->
  rmapM (fun kv : Index * F => x <-? ndiv (snd kv) k ; Ok (fst kv, x)) l =
  Ok (map (fun kv => (fst kv, snd kv / k)) l).
Proof.
  intros Hk. induction l as [|[i v] l IH]; cbn [rmapM map]; auto.
  rewrite ndiv_ok by auto. cbn [rbind fst snd]. rewrite IH. reflexivity.
Qed.
Lemma cdiv_num_ok a k : k <> 0 ->
  cdiv_num a k = Ok (mkC (option_map (fun v => v / k) (cvalue a)) (map (fun kv => (fst kv, snd kv / k)) (clc a))).
Proof.
  intros Hk. unfold cdiv_num. rewrite rmapM_div by auto.
  destruct (cvalue a); cbn; [rewrite ndiv_ok by auto|]; reflexivity.
Qed.
Lemma cdiv_num_zero a : cvalue a <> None \/ clc a <> [] -> cdiv_num a 0 = Panic.
Proof.
  intros H. unfold cdiv_num. destruct (cvalue a) as [v|]; [reflexivity|].
  cbn. destruct (clc a) as [|[k v] l]; [destruct H; congruence|]. reflexivity.
Qed.
Lemma cdiv_num_Ok_inv a k r : cdiv_num a k = Ok r -> k <> 0 \/ (clc a = [] /\ cvalue a = None).
Proof.
  intros H. destruct (num_eq_dec k 0) as [->|]; auto. right.
  destruct (clc a) as [|x l] eqn:E1.
  - destruct (cvalue a) as [v|] eqn:E2; auto.
    rewrite cdiv_num_zero in H; [discriminate|left; congruence].
  - rewrite cdiv_num_zero in H; [discriminate|right; congruence].
Qed.

Definition cdivn a k := mkC (option_map (fun v => v / k) (cvalue a)) (map (fun kv => (fst kv, snd kv / k)) (clc a)).
Lemma ceval_divn s a k : k <> 0 -> ceval s (cdivn a k) = ceval s a / k.
Proof.
  intros. unfold cdivn, ceval; cbn [clc]. rewrite (leval_map s (fun v => v / k) (finv k)).
  - field; auto.
  - intros; field; auto.
Qed.
Lemma wf_divn S0 a k : k <> 0 -> wf S0 a -> wf S0 (cdivn a k).
Proof.
  intros Hk. apply (wf_map (fun v => v / k)). intros v Hv.
  replace v with (v / k * k) by (field; auto). rewrite Hv. ring.
Qed.
Lemma as_const_divn a v k : k <> 0 -> as_const a = Some v -> as_const (cdivn a k) = Some (v / k).
Proof.
  intros Hk Ha%as_const_lc. apply lc_as_const; cbn [cdivn clc].
  destruct Ha as [[-> ->]| ->]; cbn [map fst snd]; [left; split; [reflexivity|field; auto]|now right].
Qed.
Lemma ccoef_divn a k i : k <> 0 -> ccoef (cdivn a k) i = ccoef a i / k.
Proof. intros. rewrite !ccoef_eval. now apply ceval_divn. Qed.

(** [good] is preserved by the pure operations. *)
Section Good.
Variables (md : mode) (s : Index -> F) (S0 : st).
Hypothesis HS : okS s S0.

Lemma good_const v : good md s S0 (cconst v).
Proof.
  destruct HS as [H0 H1]. split; [now apply wf_const|].
  destruct md; cbn; auto. now rewrite ceval_const.
Qed.
Lemma good_add a b : good md s S0 a -> good md s S0 b -> good md s S0 (cadd a b).
Proof.
  intros [Ha Ha'] [Hb Hb']. split; [now apply wf_add|].
  destruct md; cbn in *; auto.
  - now rewrite ceval_add, Ha', Hb'.
  - intros v. destruct (cvalue a), (cvalue b); cbn; try discriminate.
    intros E; inversion E; subst. now apply as_const_add; auto.
Qed.
Lemma good_add_cap a b : good md s S0 a -> good md s S0 b -> good md s S0 (cadd_cap a b).
Proof. intros. unfold cadd_cap. destruct Nat.leb; apply good_add; auto. Qed.
Lemma good_add_rv a b : good md s S0 a -> good md s S0 b -> good md s S0 (cadd_rv a b).
Proof. intros. apply good_add; auto. Qed.
Lemma good_sub a b : good md s S0 a -> good md s S0 b -> good md s S0 (csub a b).
Proof.
  intros [Ha Ha'] [Hb Hb']. split; [now apply wf_sub|].
  destruct md; cbn in *; auto.
  - now rewrite ceval_sub, Ha', Hb'.
  - intros v. destruct (cvalue a), (cvalue b); cbn; try discriminate.
    intros E; inversion E; subst. now apply as_const_sub; auto.
Qed.
Lemma good_neg a : good md s S0 a -> good md s S0 (cneg a).
Proof.
  intros [Ha Ha']. split; [now apply wf_neg|].
  destruct md; cbn [vok] in *; auto.
  - now rewrite ceval_neg; cbn; rewrite Ha'.
  - intros v. cbn. destruct (cvalue a); cbn; try discriminate.
    intros E; inversion E; subst. apply as_const_neg; auto.
Qed.
Lemma good_add_num a k : good md s S0 a -> good md s S0 (cadd_num a k).
Proof. intros. apply good_add; auto using good_const. Qed.
Lemma good_sub_num a k : good md s S0 a -> good md s S0 (csub_num a k).
Proof. intros. apply good_sub; auto using good_const. Qed.
Lemma good_num_sub a k : good md s S0 a -> good md s S0 (num_csub k a).
Proof. intros. apply good_sub; auto using good_const. Qed.
Lemma good_mul_num a k : good md s S0 a -> good md s S0 (cmul_num a k).
Proof.
  intros [Ha Ha']. split; [apply wf_mul_num; auto; apply HS|].
  destruct md; cbn [vok] in *; auto.
  - rewrite ceval_mul_num. unfold cmul_num. destruct nis_zero eqn:E.
    + apply nis_zero_eq in E; subst. cbn. f_equal. ring.
    + cbn. now rewrite Ha'.
  - intros v Hv. destruct (nis_zero k) eqn:E.
    + unfold cmul_num in *. rewrite E in *. cbn in *. congruence.
    + assert (E2 : cvalue (cmul_num a k) = option_map (fun v => v * k) (cvalue a))
        by (unfold cmul_num; rewrite E; reflexivity).
      rewrite E2 in Hv. destruct (cvalue a); cbn in Hv; try discriminate.
      inversion Hv; subst. apply as_const_mul_num; auto.
Qed.
Lemma good_divn a k : k <> 0 -> good md s S0 a -> good md s S0 (cdivn a k).
Proof.
  intros Hk [Ha Ha']. split; [apply wf_divn; auto|].
  destruct md; cbn [vok] in *; auto.
  - rewrite ceval_divn by auto. cbn. now rewrite Ha'.
  - intros v. cbn. destruct (cvalue a); cbn; try discriminate.
    intros E2; inversion E2; subst. apply as_const_divn; auto.
Qed.
End Good.

(** Allocation. *)
Definition isvar (S0 S1 : st) c : Prop := exists i, ~ In i (su S0) /\ In i (su S1) /\ clc c = [(i, 1)].
(** [k] variables and [n] constraints were added. *)
Definition bump (S0 S1 : st) (k n : nat) : Prop :=
  (length (su S1) = length (su S0) + k /\ sn S1 = sn S0 + n)%nat.

Lemma bump_refl S0 : bump S0 S0 0 0.
Proof. split; lia. Qed.
Lemma bump_trans S0 S1 S2 k n k' n' : bump S0 S1 k n -> bump S1 S2 k' n' -> bump S0 S2 (k + k') (n + n').
Proof. intros [? ?] [? ?]; split; lia. Qed.

Lemma wf_cvar S0 (v : option F) i : In i (su S0) -> wf S0 (cvar v i).
Proof. apply wf_var, (prime_gt1 Hp). Qed.

Lemma isvar_nonconst s S0 S1 c : okS s S0 -> isvar S0 S1 c -> nonconst c.
Proof.
  intros [H0 _] [i [Hi [_ Hc]]]. unfold nonconst, as_const. rewrite Hc.
  destruct (ieqb i I0) eqn:E; auto. apply ieqb_eq in E; subst; contradiction.
Qed.

Lemma wf_coef_fresh S0 c i : wf S0 c -> ~ In i (su S0) -> ccoef c i = 0.
Proof.
  intros [_ H] Hi. apply coef_notin. intros v Hin. apply Hi. eauto.
Qed.

(** A sum with a fresh variable depends on that variable. *)
Lemma isvar_coef S0 S1 c : isvar S0 S1 c -> exists i, ~ In i (su S0) /\ In i (su S1) /\
   (forall j, ccoef c j = if ieqb i j then 1 else 0).
Proof.
  intros [i [H1 [H2 H3]]]. exists i. repeat split; auto.
  intros j. unfold ccoef. rewrite H3, coef_cons, coef_nil. destruct ieqb; ring.
Qed.

Lemma wp_calloc md s S0 (v : option F) (Q : st -> CNum p -> Prop) :
  (md = Honest -> v <> None) ->
  (forall i, ~ In i (su S0) -> let S1 := mkst (i :: su S0) (sn S0) in let r := cvar v i in
      (md <> Setup \/ v = None -> good md s S1 r) -> (md = Honest -> v = Some (s i)) ->
      ceval s r = s i -> isvar S0 S1 r -> bump S0 S1 1 0 -> Q S1 r) ->
  wp md s S0 (calloc v) Q.
Proof.
  intros Hv HQ. cbn. split; auto. intros i Hi Hh. apply HQ; auto.
  - intros Hm. split; [apply wf_cvar; now left|].
    destruct md; cbn [vok]; auto.
    + rewrite ceval_var. cbn. auto.
    + destruct Hm as [Hm| ->]; [congruence|]. cbn. discriminate.
  - apply ceval_var.
  - exists i. cbn. auto.
  - split; cbn; lia.
Qed.

Lemma vok_setup_none s c : vok Setup s c -> nonconst c -> cvalue c = None.
Proof.
  cbn. intros H Hn. destruct (cvalue c) as [v|]; auto.
  unfold nonconst in Hn. rewrite (H v eq_refl) in Hn. discriminate.
Qed.

(** Multiplication (C06). *)
Definition post_eval md s (S1 : st) (r : CNum p) (v : F) : Prop :=
  good md s S1 r /\ (md <> Setup -> ceval s r = v).

Lemma wp_cmul_nc md s S0 a b :
  okS s S0 -> good md s S0 a -> good md s S0 b -> nonconst a -> nonconst b ->
  wp md s S0 (cmul a b) (fun S1 r =>
     post_eval md s S1 r (ceval s a * ceval s b) /\ isvar S0 S1 r /\ bump S0 S1 1 1).
Proof.
  intros HS Ha Hb Na Nb. unfold cmul. unfold nonconst in *. rewrite Na, Nb.
  apply wp_bind. apply wp_calloc.
  - intros ->. destruct Ha as [_ Ha], Hb as [_ Hb]. cbn in Ha, Hb. rewrite Ha, Hb. discriminate.
  - intros i Hi S1 r Hg Hh Hev Hvar Hbump. cbn [pbind enforce wp]. split.
    + intros Hm. specialize (Hh Hm). subst md. destruct Ha as [_ Ha], Hb as [_ Hb]. cbn in Ha, Hb.
      unfold holds. rewrite Hev. rewrite Ha, Hb in Hh. cbn in Hh. congruence.
    + intros Hc. split; [split|split].
      * assert (G : good md s S1 r).
        { apply Hg. destruct md; [left; congruence|left; congruence|right].
          rewrite (vok_setup_none s a); [reflexivity|apply Ha|exact Na]. }
        exact G.
      * intros Hm. specialize (Hc Hm). unfold holds in Hc. now rewrite Hc.
      * destruct Hvar as [j Hj]. exists j. exact Hj.
      * destruct Hbump. split; cbn in *; lia.
Qed.

Lemma cmul_const1 a b v : as_const a = Some v -> cmul a b = Ret (cmul_num b v).
Proof. intros H. unfold cmul. now rewrite H. Qed.
Lemma cmul_const2 a b v : nonconst a -> as_const b = Some v -> cmul a b = Ret (cmul_num a v).
Proof. unfold nonconst. intros H1 H2. unfold cmul. now rewrite H1, H2. Qed.

Lemma wp_cmul md s S0 a b :
  okS s S0 -> good md s S0 a -> good md s S0 b ->
  wp md s S0 (cmul a b) (fun S1 r => post_eval md s S1 r (ceval s a * ceval s b)).
Proof.
  intros HS Ha Hb. destruct (as_const a) as [va|] eqn:Ea.
  - rewrite (cmul_const1 _ _ _ Ea). apply wp_ret. split; [apply good_mul_num; auto|].
    intros _. rewrite ceval_mul_num, (as_const_eval s a va) by (auto; apply HS). ring.
  - destruct (as_const b) as [vb|] eqn:Eb.
    + rewrite (cmul_const2 _ _ _ Ea Eb). apply wp_ret. split; [apply good_mul_num; auto|].
      intros _. rewrite ceval_mul_num, (as_const_eval s b vb) by (auto; apply HS). ring.
    + eapply wp_mono; [apply wp_cmul_nc; auto|]. intros S1 r _ [H _]. exact H.
Qed.

(** Division (C07): the numerator must not be constant. *)
Lemma wp_cdiv md s S0 a b :
  okS s S0 -> good md s S0 a -> good md s S0 b -> nonconst a ->
  (md = Honest -> ceval s b <> 0) -> (md = Setup -> as_const b <> Some 0) ->
  wp md s S0 (cdiv a b) (fun S1 r =>
     good md s S1 r /\ (md <> Setup -> ceval s r * ceval s b = ceval s a) /\ nonconst r /\
     (nonconst b -> isvar S0 S1 r /\ bump S0 S1 1 1) /\ (~ nonconst b -> S1 = S0 /\ r = cdivn a (ceval s b))).
Proof.
  intros HS Ha Hb Na Hh Hsu. unfold cdiv. unfold nonconst in Na. rewrite Na.
  destruct (as_const b) as [vb|] eqn:Eb.
  - assert (Ev : ceval s b = vb) by (apply as_const_eval; auto; apply HS).
    destruct (num_eq_dec vb 0) as [->|Hv].
    + assert (P : cdiv_num a 0 = Panic).
      { apply cdiv_num_zero. right. intros E. unfold as_const in Na. rewrite E in Na. discriminate. }
      rewrite P. cbn. destruct md; auto; exfalso; [apply Hh|apply Hsu]; auto.
    + rewrite cdiv_num_ok by auto. cbn [plift wp]. fold (cdivn a vb).
      split; [apply good_divn; auto|]. split; [|split; [|split]].
      * intros _. rewrite ceval_divn, Ev by auto. field; auto.
      * destruct (nonconst_coef a) as [i [Hi Hc]]; [apply Ha|exact Na|].
        apply (coef_nonconst _ i); auto. rewrite ccoef_divn by auto.
        intros E. apply Hc. replace (ccoef a i) with (ccoef a i / vb * vb) by (field; auto). rewrite E. ring.
      * unfold nonconst. congruence.
      * rewrite Ev. auto.
  - apply wp_bind.
    assert (G : forall v, odiv (cvalue a) (cvalue b) = Ok v -> (md = Honest -> v <> None) ->
       (md = Honest -> v = Some (ceval s a / ceval s b)) -> (md = Setup -> v = None) ->
       wp md s S0 (r <-- calloc v ;; enforce r b a ;;; Ret r) (fun S1 r =>
     good md s S1 r /\ (md <> Setup -> ceval s r * ceval s b = ceval s a) /\ nonconst r /\
     (nonconst b -> isvar S0 S1 r /\ bump S0 S1 1 1) /\ (~ nonconst b -> S1 = S0 /\ r = cdivn a (ceval s b)))).
    { intros v Ev Hv1 Hv2 Hv3. apply wp_bind. apply wp_calloc; auto.
      intros i Hi S1 r Hg Hhr Hev Hvar Hbump. cbn [pbind enforce wp]. split.
      - intros Hm. unfold holds. rewrite Hev. specialize (Hhr Hm). rewrite (Hv2 Hm) in Hhr.
        assert (E : s i = ceval s a / ceval s b) by congruence. rewrite E. field. auto.
      - intros Hc. split; [|split; [|split; [|split]]].
        + assert (X : good md s S1 r) by (apply Hg; destruct md; [left|left|right]; auto; congruence). exact X.
        + intros Hm. apply Hc; auto.
        + eapply isvar_nonconst; [exact HS|exact Hvar].
        + intros _. split; [destruct Hvar as [j Hj]; exists j; exact Hj|]. destruct Hbump. split; cbn in *; lia.
        + intros X. exfalso. apply X. exact Eb. }
    destruct md.
    + destruct (odiv (cvalue a) (cvalue b)) eqn:E; cbn; auto. apply G; auto; congruence.
    + destruct Ha as [_ Ha], Hb as [_ Hb]. cbn in Ha, Hb. rewrite Ha, Hb in *. cbn [odiv] in *.
      rewrite ndiv_ok in * by auto. cbn [rmap plift wp]. apply G; auto; congruence.
    + rewrite (vok_setup_none s a (proj2 Ha) Na) in *. cbn [odiv plift wp] in *. apply G; auto; congruence.
Qed.

(** Assertions (C10). *)
Lemma wp_assert_const md s S0 a k :
  okS s S0 -> good md s S0 a ->
  (md = Honest -> ceval s a = k) -> (md = Setup -> as_const a = None \/ as_const a = Some k) ->
  wp md s S0 (cassert_const a k) (fun S1 _ =>
     (md <> Setup -> ceval s a = k) /\ (nonconst a -> bump S0 S1 0 1) /\ su S1 = su S0).
Proof.
  intros HS Ha Hh Hsu. unfold cassert_const. destruct (as_const a) as [v|] eqn:E.
  - assert (Ev : ceval s a = v) by (apply as_const_eval; auto; apply HS).
    destruct (neqb v k) eqn:Ek; cbn.
    + apply neqb_eq in Ek; subst. repeat split; auto; unfold nonconst in *; congruence.
    + apply neqb_neq in Ek. destruct md; auto; exfalso.
      * apply Ek. rewrite <- Ev. auto.
      * destruct (Hsu eq_refl); congruence.
  - cbn. unfold holds. rewrite ceval_one, ceval_const by apply HS. split.
    + intros Hm. rewrite (Hh Hm). ring.
    + intros Hc. split; [|split; auto].
      * intros Hm. rewrite <- (Hc Hm). ring.
      * intros _. split; cbn; lia.
Qed.

Lemma wp_assert_zero md s S0 a :
  okS s S0 -> good md s S0 a ->
  (md = Honest -> ceval s a = 0) -> (md = Setup -> as_const a = None \/ as_const a = Some 0) ->
  wp md s S0 (cassert_zero a) (fun S1 _ => (md <> Setup -> ceval s a = 0) /\ (nonconst a -> bump S0 S1 0 1) /\ su S1 = su S0).
Proof. apply wp_assert_const. Qed.

Lemma wp_assert_eq md s S0 a b :
  okS s S0 -> good md s S0 a -> good md s S0 b ->
  (md = Honest -> ceval s a = ceval s b) ->
  (md = Setup -> as_const (csub a b) = None \/ as_const (csub a b) = Some 0) ->
  wp md s S0 (cassert_eq a b) (fun S1 _ =>
     (md <> Setup -> ceval s a = ceval s b) /\ (nonconst (csub a b) -> bump S0 S1 0 1) /\ su S1 = su S0).
Proof.
  intros HS Ha Hb Hh Hsu. unfold cassert_eq.
  eapply wp_mono; [apply wp_assert_zero; auto using good_sub|].
  - intros Hm. rewrite ceval_sub, (Hh Hm). ring.
  - intros S1 _ _ [H1 H2]. split; auto. intros Hm. specialize (H1 Hm). rewrite ceval_sub in H1.
    replace (ceval s a) with (ceval s a - ceval s b + ceval s b) by ring. rewrite H1. ring.
Qed.

Lemma inv_value_ok (v : F) : v <> 0 -> inv_value (Some v) = Ok (Some (finv v)).
Proof.
  intros H. unfold inv_value. rewrite (proj2 (nis_zero_neq v) H), ninv_ok by auto. reflexivity.
Qed.
Lemma inv_value_total (v : option F) : exists r, inv_value v = Ok r /\ (v <> None -> r <> None) /\ (v = None -> r = None).
Proof.
  destruct v as [v|]; [|exists None; repeat split; congruence].
  destruct (num_eq_dec v 0) as [->|H].
  - exists (Some 1). repeat split; congruence.
  - rewrite inv_value_ok by auto. eexists; repeat split; congruence.
Qed.

Lemma wp_assert_nonzero md s S0 a :
  okS s S0 -> good md s S0 a ->
  (md = Honest -> ceval s a <> 0) -> (md = Setup -> as_const a <> Some 0) ->
  wp md s S0 (cassert_nonzero a) (fun S1 _ =>
     (md <> Setup -> ceval s a <> 0) /\ (nonconst a -> bump S0 S1 1 1)).
Proof.
  intros HS Ha Hh Hsu. unfold cassert_nonzero. destruct (as_const a) as [v|] eqn:E.
  - assert (Ev : ceval s a = v) by (apply as_const_eval; auto; apply HS).
    destruct (neqb v 0) eqn:Ek; cbn.
    + apply neqb_eq in Ek; subst v. destruct md; auto; exfalso.
      * apply Hh; auto.
      * apply Hsu; congruence.
    + apply neqb_neq in Ek. split; [congruence|]. unfold nonconst; congruence.
  - destruct (inv_value_total (cvalue a)) as [iv [Eiv [Hn1 Hn2]]]. rewrite Eiv. cbn [plift pbind].
    apply wp_bind. apply wp_calloc.
    + intros ->. apply Hn1. destruct Ha as [_ Ha]; cbn in Ha. congruence.
    + intros i Hi S1 r Hg Hhr Hev Hvar Hbump. cbn [pbind enforce wp]. split.
      * intros Hm. subst md. unfold holds. rewrite Hev, ceval_one by apply HS.
        specialize (Hhr eq_refl). destruct Ha as [_ Ha]; cbn in Ha. rewrite Ha in Eiv.
        rewrite inv_value_ok in Eiv by auto. rewrite Hhr in Eiv.
        assert (E2 : s i = finv (ceval s a)) by congruence. rewrite E2. field. auto.
      * intros Hc. split.
        -- intros Hm E0. specialize (Hc Hm). unfold holds in Hc. rewrite E0, ceval_one in Hc by apply HS.
           apply (n1_neq_n0 Hp). rewrite <- Hc. ring.
        -- intros _. destruct Hbump. split; cbn in *; lia.
Qed.

Definition isbit (v : F) : Prop := v = 0 \/ v = 1.

Lemma wp_assert_bit md s S0 a :
  okS s S0 -> good md s S0 a ->
  (md = Honest -> isbit (ceval s a)) ->
  (md = Setup -> forall v, as_const a = Some v -> isbit v) ->
  wp md s S0 (cassert_bit a) (fun S1 _ =>
     (md <> Setup -> isbit (ceval s a)) /\ (nonconst a -> bump S0 S1 0 1) /\ su S1 = su S0).
Proof.
  intros HS Ha Hh Hsu. unfold cassert_bit. destruct (as_const a) as [v|] eqn:E.
  - assert (Ev : ceval s a = v) by (apply as_const_eval; auto; apply HS).
    assert (D : isbit v <-> (neqb v 1 || neqb v 0 = true)).
    { unfold isbit. rewrite orb_true_iff, !neqb_eq. tauto. }
    destruct (neqb v 1 || neqb v 0) eqn:Ek; cbn.
    + split; [|split; auto; unfold nonconst; congruence]. intros _. rewrite Ev. now apply D.
    + assert (N : ~ isbit v) by (rewrite D; congruence).
      destruct md; auto; exfalso; apply N.
      * rewrite <- Ev. auto.
      * auto.
  - cbn. unfold holds. rewrite ceval_zero, ceval_sub_num by apply HS. split.
    + intros Hm. destruct (Hh Hm) as [-> | ->]; ring.
    + intros Hc. split; [|split; auto].
      * intros Hm. specialize (Hc Hm). apply (nmul_integral Hp) in Hc as [Hc|Hc]; [now left|right].
        replace (ceval s a) with (ceval s a - 1 + 1) by ring. rewrite Hc. ring.
      * intros _. split; cbn; lia.
Qed.

(** is_zero (C09). *)
Lemma isbit_nbool (b : bool) : isbit (nbool b).
Proof. destruct b; [now right|now left]. Qed.

Lemma wp_is_zero_nc md s S0 a :
  okS s S0 -> good md s S0 a -> nonconst a ->
  wp md s S0 (cis_zero a) (fun S1 r =>
     post_eval md s S1 r (nbool (nis_zero (ceval s a))) /\ nonconst r /\ bump S0 S1 3 3 /\
     exists v, isvar S0 S1 v /\ r = csub cone v).
Proof.
  intros HS Ha Na. unfold cis_zero. unfold nonconst in Na. rewrite Na.
  destruct (inv_value_total (cvalue a)) as [iv [Eiv [Hn1 Hn2]]]. rewrite Eiv. cbn [plift pbind].
  apply wp_bind. apply wp_calloc.
  { intros ->. apply Hn1. destruct Ha as [_ Ha]; cbn in Ha. congruence. }
  intros i Hi S1 r Hg Hhr Hev Hvar Hbump.
  assert (I1 : incl (su S0) (su S1)) by (intros j Hj; now right).
  assert (HS1 : okS s S1) by (eapply okS_incl; eauto).
  assert (Ha1 : good md s S1 a) by (eapply good_incl; eauto).
  assert (Gr : good md s S1 r).
  { apply Hg. destruct md; [left; congruence|left; congruence|right].
    apply Hn2. apply (vok_setup_none s); [apply Ha|exact Na]. }
  assert (Nr : nonconst r) by (eapply isvar_nonconst; [exact HS|exact Hvar]).
  assert (Hinv : md = Honest -> ceval s r = if nis_zero (ceval s a) then 1 else finv (ceval s a)).
  { intros ->. specialize (Hhr eq_refl). destruct Ha as [_ Ha]; cbn in Ha. rewrite Ha in Eiv.
    rewrite Hev. cbn in Eiv. destruct (nis_zero (ceval s a)) eqn:Z.
    - congruence.
    - apply nis_zero_neq in Z. rewrite ninv_ok in Eiv by auto. cbn in Eiv. congruence. }
  eapply wp_use.
  { apply wp_assert_nonzero; auto.
    - intros Hm. rewrite (Hinv Hm). destruct (nis_zero (ceval s a)) eqn:Z; [apply (n1_neq_n0 Hp)|].
      apply nis_zero_neq in Z. intros E. apply (n1_neq_n0 Hp). rewrite <- (finv_l Hp (ceval s a)) by auto.
      rewrite E. ring.
    - intros _. unfold nonconst in Nr. congruence. }
  intros S2 [] I2 [Hnz Hb2]. specialize (Hb2 Nr).
  assert (HS2 : okS s S2) by (eapply okS_incl; eauto).
  eapply wp_use.
  { apply wp_cmul_nc; [exact HS2|eapply good_incl; eauto|eapply good_incl; eauto|exact Nr|exact Na]. }
  intros S3 m I3 [[Gm Em] [Vm Bm]].
  assert (HS3 : okS s S3) by (eapply okS_incl; eauto).
  assert (Nm : nonconst m) by (eapply isvar_nonconst; [exact HS2|exact Vm]).
  eapply wp_use.
  { apply wp_assert_bit; auto.
    - intros Hm. rewrite Em by congruence. rewrite (Hinv Hm).
      destruct (nis_zero (ceval s a)) eqn:Z.
      + apply nis_zero_eq in Z. rewrite Z. left; ring.
      + apply nis_zero_neq in Z. right. apply (finv_l Hp); auto.
    - intros _ v Hv. unfold nonconst in Nm. congruence. }
  intros S4 [] I4 [Hbit [Hb4 Hsu]]. specialize (Hb4 Nm).
  assert (HS4 : okS s S4) by (eapply okS_incl; eauto).
  apply wp_ret. split; [split|split; [|split]].
  - apply good_sub; [apply good_const; auto|eapply good_incl; eauto].
  - intros Hm. rewrite ceval_sub, ceval_one by apply HS. specialize (Em Hm). specialize (Hbit Hm).
    specialize (Hnz Hm). rewrite Em in *.
    destruct (nis_zero (ceval s a)) eqn:Z; cbn.
    + apply nis_zero_eq in Z. rewrite Z. ring.
    + apply nis_zero_neq in Z. destruct Hbit as [Hbit|Hbit].
      * apply (nmul_integral Hp) in Hbit as [E|E]; contradiction.
      * rewrite Hbit. ring.
  - destruct (isvar_coef _ _ _ Vm) as [j [Hj1 [Hj2 Hj3]]].
    assert (j <> I0) by (intros ->; apply Hj1, HS2).
    apply (coef_nonconst _ j); auto. rewrite ccoef_sub, Hj3, ieqb_refl.
    unfold cone. rewrite ccoef_const by auto. intros E. apply (n1_neq_n0 Hp).
    replace (n1 : F) with (- (0 - 1) : F) by ring. rewrite E. ring.
  - pose proof (bump_trans _ _ _ _ _ _ _ Hbump (bump_trans _ _ _ _ _ _ _ Hb2 (bump_trans _ _ _ _ _ _ _ Bm Hb4))) as X.
    exact X.
  - exists m. split; auto. destruct Vm as [j [Hj1 [Hj2 Hj3]]]. exists j. rewrite Hsu.
    repeat split; auto.
Qed.

Lemma wp_is_zero md s S0 a :
  okS s S0 -> good md s S0 a ->
  wp md s S0 (cis_zero a) (fun S1 r =>
     post_eval md s S1 r (nbool (nis_zero (ceval s a))) /\ (nonconst a -> nonconst r)).
Proof.
  intros HS Ha. destruct (as_const a) as [v|] eqn:E.
  - unfold cis_zero. rewrite E. apply wp_ret. split; [split|].
    + apply good_const; auto.
    + intros _. unfold cbconst. rewrite ceval_const by apply HS.
      now rewrite (as_const_eval s a v) by (auto; apply HS).
    + unfold nonconst; congruence.
  - eapply wp_mono; [apply wp_is_zero_nc; auto|]. intros S1 r _ [H1 [H2 _]]. auto.
Qed.

Lemma wp_is_eq md s S0 a b :
  okS s S0 -> good md s S0 a -> good md s S0 b ->
  wp md s S0 (cis_eq a b) (fun S1 r => post_eval md s S1 r (nbool (neqb (ceval s a) (ceval s b)))).
Proof.
  intros HS Ha Hb. unfold cis_eq. eapply wp_mono; [apply wp_is_zero; auto using good_sub|].
  intros S1 r _ [[H1 H2] _]. split; auto. intros Hm. rewrite (H2 Hm), ceval_sub. f_equal.
  destruct (neqb (ceval s a) (ceval s b)) eqn:E.
  - apply neqb_eq in E. rewrite E. apply nis_zero_eq. ring.
  - apply neqb_neq in E. apply nis_zero_neq. intros E2. apply E.
    replace (ceval s a) with (ceval s a - ceval s b + ceval s b) by ring. rewrite E2. ring.
Qed.

(** switch (C11). *)
Lemma ninto_bool_ok (v : F) : isbit v -> exists b : bool, ninto_bool v = Ok b /\ v = nbool b.
Proof.
  unfold ninto_bool. intros [->| ->].
  - rewrite neqb_refl. exists false; auto.
  - rewrite (proj2 (neqb_neq _ _) (n1_neq_n0 Hp)), neqb_refl. exists true; auto.
Qed.
Lemma ninto_bool_inv (v : F) (b : bool) : ninto_bool v = Ok b -> v = nbool b.
Proof.
  unfold ninto_bool. destruct (neqb v 0) eqn:E.
  - apply neqb_eq in E. intros X; inversion X; subst; auto.
  - destruct (neqb v 1) eqn:E1; [|discriminate]. apply neqb_eq in E1.
    intros X; inversion X; subst; auto.
Qed.

Lemma wp_switch md s S0 a bit b :
  okS s S0 -> good md s S0 a -> good md s S0 bit -> good md s S0 b ->
  (md = Honest -> isbit (ceval s bit)) ->
  (md = Setup -> forall v, as_const bit = Some v -> isbit v) ->
  wp md s S0 (cswitch a bit b) (fun S1 r =>
     good md s S1 r /\ (md <> Setup -> ceval s bit = 1 -> ceval s r = ceval s a) /\
     (md <> Setup -> ceval s bit = 0 -> ceval s r = ceval s b)).
Proof.
  intros HS Ha Hbit Hb Hh Hsu. unfold cswitch, cb_as_const.
  destruct (as_const bit) as [v|] eqn:E.
  - assert (Ev : ceval s bit = v) by (apply as_const_eval; auto; apply HS).
    cbn [omapM]. destruct (ninto_bool v) as [bb|] eqn:Eb.
    + apply ninto_bool_inv in Eb. rewrite Eb in Ev. cbn [rmap plift pbind]. destruct bb; cbn [nbool] in *; apply wp_ret;
        (split; [assumption|]); rewrite Ev; split; auto; intros _ X; exfalso; apply (n1_neq_n0 Hp); congruence.
    + cbn. destruct md; auto.
      * destruct (ninto_bool_ok v) as [? [? ?]]; [rewrite <- Ev; auto|congruence].
      * destruct (ninto_bool_ok v) as [? [? ?]]; [auto|congruence].
  - cbn [omapM plift pbind]. destruct Nat.ltb.
    + eapply wp_use; [apply wp_cmul; auto using good_sub|].
      intros S1 t I1 [Gt Et]. apply wp_ret.
      split; [apply good_add_rv; eauto using okS_incl, good_incl|].
      split; intros Hm X; rewrite ceval_add_rv, (Et Hm), ceval_sub, X; ring.
    + eapply wp_use; [apply wp_cmul; auto using good_sub, good_num_sub|].
      intros S1 t I1 [Gt Et]. apply wp_ret.
      split; [apply good_add_rv; eauto using okS_incl, good_incl|].
      split; intros Hm X; rewrite ceval_add_rv, (Et Hm), ceval_sub, ceval_num_sub, X by apply HS; ring.
Qed.
End FieldOps.
