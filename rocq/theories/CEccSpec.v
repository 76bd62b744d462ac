(** What the curve gadgets compute (CEcc.v). *)

From Verif Require Export CEcc BitifySpec MontSpec CurveOrder.
From Coq Require Import Lia.
Open Scope num_scope.

Section Dep.
Context {p : positive} (Hp : prime (Zpos p)).
Notation F := (Num p).
Add Field cd_field : (num_field Hp) (morphism (@num_morph p), constants [num_cst], power_tac (@num_power p) [num_pow_cst]).
Implicit Types (a b c : CNum p) (s : Index -> F).

(** [c] depends on a variable that was not in use in [S0]. *)
Definition newdep S0 c : Prop := exists i, ~ In i (su S0) /\ ccoef c i <> 0.

Lemma newdep_nonconst s S0 c : okS s S0 -> newdep S0 c -> nonconst c.
Proof.
  intros [H0 _] [i [Hi Hc]]. apply (coef_nonconst c i); auto. intros ->. contradiction.
Qed.
Lemma newdep_incl S0 S1 c : incl (su S0) (su S1) -> newdep S1 c -> newdep S0 c.
Proof. intros H [i [Hi Hc]]. exists i; split; auto. Qed.
Lemma isvar_newdep S0 S1 c : isvar S0 S1 c -> newdep S0 c.
Proof.
  intros H. destruct (isvar_coef Hp _ _ _ H) as [i [H1 [_ H3]]]. exists i. split; auto.
  rewrite H3, (proj2 (ieqb_eq i i) eq_refl). apply (n1_neq_n0 Hp).
Qed.
Ltac nd := intros [i [Hi Hc]]; exists i; split; [assumption|].
Lemma newdep_add_l S0 a b : newdep S0 a -> wf S0 b -> newdep S0 (cadd a b).
Proof. nd. rewrite ccoef_add, (wf_coef_fresh _ _ _ H Hi). intros E. apply Hc. rewrite <- E. ring. Qed.
Lemma newdep_add_r S0 a b : newdep S0 b -> wf S0 a -> newdep S0 (cadd a b).
Proof. nd. rewrite ccoef_add, (wf_coef_fresh _ _ _ H Hi). intros E. apply Hc. rewrite <- E. ring. Qed.
Lemma newdep_cap_l S0 a b : newdep S0 a -> wf S0 b -> newdep S0 (cadd_cap a b).
Proof. nd. rewrite ccoef_add_cap, (wf_coef_fresh _ _ _ H Hi). intros E. apply Hc. rewrite <- E. ring. Qed.
Lemma newdep_cap_r S0 a b : newdep S0 b -> wf S0 a -> newdep S0 (cadd_cap a b).
Proof. nd. rewrite ccoef_add_cap, (wf_coef_fresh _ _ _ H Hi). intros E. apply Hc. rewrite <- E. ring. Qed.
Lemma newdep_rv_r S0 a b : newdep S0 b -> wf S0 a -> newdep S0 (cadd_rv a b).
Proof. nd. rewrite ccoef_add_rv, (wf_coef_fresh _ _ _ H Hi). intros E. apply Hc. rewrite <- E. ring. Qed.
Lemma newdep_sub_l S0 a b : newdep S0 a -> wf S0 b -> newdep S0 (csub a b).
Proof. nd. rewrite ccoef_sub, (wf_coef_fresh _ _ _ H Hi). intros E. apply Hc. rewrite <- E. ring. Qed.
Lemma newdep_sub_r S0 a b : newdep S0 b -> wf S0 a -> newdep S0 (csub a b).
Proof.
  nd. rewrite ccoef_sub, (wf_coef_fresh _ _ _ H Hi). intros E. apply Hc.
  transitivity (- (0 - ccoef b i)); [ring|]. rewrite E. ring.
Qed.
Lemma newdep_neg S0 a : newdep S0 a -> newdep S0 (cneg a).
Proof. nd. rewrite ccoef_neg. intros E. apply Hc. transitivity (- - ccoef a i); [ring|]. rewrite E. ring. Qed.
Lemma newdep_mul_num S0 a k : k <> 0 -> newdep S0 a -> newdep S0 (cmul_num a k).
Proof. intros Hk. nd. rewrite ccoef_mul_num. apply (nmul_nonzero Hp); auto. Qed.
Lemma newdep_add_num s S0 a k : okS s S0 -> newdep S0 a -> newdep S0 (cadd_num a k).
Proof. intros [H0 _]. nd. rewrite ccoef_add_num; auto. intros ->; contradiction. Qed.
Lemma newdep_sub_num s S0 a k : okS s S0 -> newdep S0 a -> newdep S0 (csub_num a k).
Proof. intros [H0 _]. nd. rewrite ccoef_sub_num; auto. intros ->; contradiction. Qed.
Lemma newdep_num_sub s S0 a k : okS s S0 -> newdep S0 a -> newdep S0 (num_csub k a).
Proof.
  intros [H0 _]. nd. rewrite ccoef_num_sub by (intros ->; contradiction).
  intros E. apply Hc. transitivity (- - ccoef a i); [ring|]. rewrite E. ring.
Qed.
Lemma newdep_divn S0 a k : k <> 0 -> newdep S0 a -> newdep S0 (cdivn a k).
Proof.
  intros Hk. nd. rewrite (ccoef_divn Hp) by auto. intros E. apply Hc.
  transitivity (ccoef a i / k * k); [field; auto|]. rewrite E. ring.
Qed.

(** The same for dependence on any variable. *)
Lemma nc_coef S0 a : wf S0 a -> nonconst a -> exists i, i <> I0 /\ ccoef a i <> 0.
Proof. intros [H _]. now apply nonconst_coef. Qed.
Ltac nc := let Hw := fresh in let Hn := fresh in intros Hw Hn; destruct (nc_coef _ _ Hw Hn) as [i [Hi Hc]]; apply (coef_nonconst _ i); [assumption|].
Lemma nc_mul_num S0 a k : k <> 0 -> wf S0 a -> nonconst a -> nonconst (cmul_num a k).
Proof. intros Hk. nc. rewrite ccoef_mul_num. apply (nmul_nonzero Hp); auto. Qed.
Lemma nc_add_num S0 a k : wf S0 a -> nonconst a -> nonconst (cadd_num a k).
Proof. nc. rewrite ccoef_add_num; auto. Qed.
Lemma nc_sub_num S0 a k : wf S0 a -> nonconst a -> nonconst (csub_num a k).
Proof. nc. rewrite ccoef_sub_num; auto. Qed.
Lemma nc_num_sub S0 a k : wf S0 a -> nonconst a -> nonconst (num_csub k a).
Proof.
  nc. rewrite ccoef_num_sub by auto. intros E. apply Hc. transitivity (- - ccoef a i); [ring|]. rewrite E. ring.
Qed.
Lemma nc_neg S0 a : wf S0 a -> nonconst a -> nonconst (cneg a).
Proof. nc. rewrite ccoef_neg by auto. intros E. apply Hc. transitivity (- - ccoef a i); [ring|]. rewrite E. ring. Qed.
Lemma nc_sub_swap S0 a b : wf S0 a -> wf S0 b -> nonconst (csub a b) -> nonconst (csub b a).
Proof.
  intros Ha Hb Hn. destruct (nc_coef _ _ (wf_sub S0 a b Ha Hb) Hn) as [i [Hi Hc]]. apply (coef_nonconst _ i); auto.
  rewrite ccoef_sub in *. intros E. apply Hc. transitivity (- (ccoef b i - ccoef a i)); [ring|]. rewrite E. ring.
Qed.
Lemma nc_const_sub S0 (k : F) a : wf S0 a -> nonconst a -> nonconst (csub (cconst k) a).
Proof. exact (nc_num_sub S0 a k). Qed.
Lemma nc_sub_const S0 (k : F) a : wf S0 a -> nonconst a -> nonconst (csub a (cconst k)).
Proof. exact (nc_sub_num S0 a k). Qed.

Lemma wp_cdiv_nc md s S0 a b :
  okS s S0 -> good md s S0 a -> good md s S0 b -> nonconst a -> nonconst b ->
  (md = Honest -> ceval s b <> 0) ->
  wp md s S0 (cdiv a b) (fun S1 r =>
     good md s S1 r /\ (md <> Setup -> ceval s r * ceval s b = ceval s a) /\ isvar S0 S1 r /\ bump S0 S1 1 1).
Proof.
  intros HS Ha Hb Na Nb Hh. eapply wp_mono; [apply (wp_cdiv Hp); auto|].
  - intros _. unfold nonconst in Nb. congruence.
  - intros S1 r _ [H1 [H2 [H3 [H4 _]]]]. destruct (H4 Nb). auto.
Qed.
(** A product is a new variable or a multiple of a factor. *)
Lemma wp_cmul_dep md s S0 a b :
  okS s S0 -> good md s S0 a -> good md s S0 b ->
  wp md s S0 (cmul a b) (fun S1 r =>
    post_eval md s S1 r (ceval s a * ceval s b) /\
    (isvar S0 S1 r \/ exists c k, (c = a \/ c = b) /\ r = cmul_num c k) /\
    (nonconst a -> nonconst b -> bump S0 S1 1 1)).
Proof.
  intros HS Ha Hb. eapply wp_mono; [apply (wp_cmul_full Hp); auto|]. intros S1 r _ [H1 [H2 H3]].
  split; auto. unfold both_nc, nonconst in *. destruct (as_const a), (as_const b); (split; [|intros; try discriminate; now apply H2]);
    first [left; now apply H2|right; now apply H3].
Qed.
Lemma div_val (r a b : F) : b <> 0 -> r * b = a -> r = a / b.
Proof. intros Hb <-. field; auto. Qed.

(** Switch on a non-constant bit between different combinations. *)
Lemma wp_switch_nc md s S0 a bit b :
  okS s S0 -> good md s S0 a -> good md s S0 bit -> good md s S0 b ->
  (md = Honest -> isbit (ceval s bit)) -> nonconst bit -> nonconst (csub a b) ->
  wp md s S0 (cswitch a bit b) (fun S1 r =>
     good md s S1 r /\ (md <> Setup -> ceval s bit = 1 -> ceval s r = ceval s a) /\
     (md <> Setup -> ceval s bit = 0 -> ceval s r = ceval s b) /\ newdep S0 r /\ bump S0 S1 1 1).
Proof.
  intros HS Ha Hbit Hb Hh Nbit Nab. eapply wp_mono.
  { apply wp_and; [apply (wp_switch Hp md s S0 a bit b); auto|].
    { intros _ v. unfold nonconst in Nbit. congruence. }
    instantiate (1 := fun S1 r => newdep S0 r /\ bump S0 S1 1 1).
    unfold cswitch, cb_as_const. pose proof Nbit as Nb'. unfold nonconst in Nb'. rewrite Nb'. cbn [omapM plift pbind].
    destruct Nat.ltb.
    - eapply wp_use; [apply (wp_cmul_nc Hp md s S0 bit (csub a b)); auto using good_sub|].
      intros S1 t I1 [_ [V B]]. apply wp_ret. split; auto. apply newdep_rv_r; [eapply isvar_newdep; eauto|apply Hb].
    - eapply wp_use; [apply (wp_cmul_nc Hp md s S0 (num_csub n1 bit) (csub b a)); auto using good_sub, good_num_sub|].
      + eapply nc_num_sub; [apply Hbit|exact Nbit].
      + eapply nc_sub_swap; [apply Ha|apply Hb|auto].
      + intros S1 t I1 [_ [V B]]. apply wp_ret. split; auto. apply newdep_rv_r; [eapply isvar_newdep; eauto|apply Ha]. }
  intros S1 r _ [[H1 [H2 H3]] [H4 H5]]. auto.
Qed.
End Dep.

Section Points.
Context {p : positive} (Hp : prime (Zpos p)).
Notation F := (Num p).
Add Field cp_field : (num_field Hp) (morphism (@num_morph p), constants [num_cst], power_tac (@num_power p) [num_pow_cst]).
Variables d A B : F.
Hypothesis Hm1 : is_square (- (1) : F).
Hypothesis Hd : ~ is_square d.
Hypothesis HM : mont_ok d A B.
Notation onc := (on_curve d).
Notation onm := (on_mont A B).
Notation "P +e Q" := (eadd d P Q) (at level 50, left associativity).
Implicit Types (s : Index -> F) (P Q M N : CPoint p) (a b c : CNum p).

Definition cpe s P : EPoint p := mkE (ceval s (px P)) (ceval s (py P)).
Definition cpm s P : MPoint p := mkM (ceval s (px P)) (ceval s (py P)).
Definition goodP md s (S0 : st) P : Prop := good md s S0 (px P) /\ good md s S0 (py P).
Definition ncP P : Prop := nonconst (px P) /\ nonconst (py P).
Definition newP (S0 : st) P : Prop := newdep S0 (px P) /\ newdep S0 (py P).

Lemma goodP_incl md s S0 S1 P : incl (su S0) (su S1) -> goodP md s S0 P -> goodP md s S1 P.
Proof. intros I [H1 H2]. split; eapply good_incl; eauto. Qed.
Lemma newP_incl S0 S1 P : incl (su S0) (su S1) -> newP S1 P -> newP S0 P.
Proof. intros I [H1 H2]. split; eapply newdep_incl; eauto. Qed.
Lemma newP_ncP s S0 P : okS s S0 -> newP S0 P -> ncP P.
Proof. intros HS [H1 H2]. split; eapply newdep_nonconst; eauto. Qed.

Lemma num3 : (num 3 : F) = 1 + 1 + 1.
Proof. change (num (1 + 1 + 1) = (num 1 : F) + num 1 + num 1). now rewrite !num_add. Qed.
Lemma d_neq0 : d <> 0.
Proof. intros ->. apply Hd. exists 0. ring. Qed.
Lemma num3_neq0 : num 3 <> 0 :> F.
Proof.
  intros E. assert (D : (Zpos p | 3)%Z).
  { apply Z.mod_divide; [lia|]. apply num_eq_mod in E. rewrite E. apply Z.mod_0_l. lia. }
  destruct (prime_divisors _ prime_3 _ D) as [X|[X|[X|X]]]; try lia; pose proof (prime_gt1 Hp); try lia.
  assert (p = 3%positive) by congruence. clear - Hm1 H0. subst p. destruct Hm1 as [i Hi].
  assert (C : (nval i = 0 \/ nval i = 1 \/ nval i = 2)%Z) by (pose proof (nval_range i); lia).
  assert (K : (num (nval i) : Num 3) * num (nval i) = - (1)) by now rewrite num_nval.
  destruct C as [C|[C|C]]; rewrite C in K; apply (f_equal nval) in K; vm_compute in K; discriminate.
Qed.

Let cmpl := complete Hp d Hm1 Hd.
Set Default Proof Using "Type*".
Opaque emul.
Lemma emul_8 (P : EPoint p) : onc P -> emul d 8 P = (P +e P) +e (P +e P) +e ((P +e P) +e (P +e P)).
Proof.
  intros H. pose proof (onc_add Hp d Hm1 Hd _ _ H H) as H2. change 8%Z with (2 * (2 * 2))%Z.
  rewrite !(emul_double Hp d Hm1 Hd), (emul_2 Hp d Hm1 Hd) by auto. reflexivity.
Qed.


(** Bring every [good] hypothesis to a later state. *)
Ltac lift I := match type of I with incl (su ?S0) (su ?S1) =>
  repeat match goal with
  | H : good ?md ?s S0 ?c |- _ => lazymatch goal with _ : good md s S1 c |- _ => fail | _ => let L := fresh "Lft" in pose proof (good_incl md s S0 S1 c H I) as L end
  | H : okS ?s S0 |- _ => lazymatch goal with _ : okS s S1 |- _ => fail | _ => let L := fresh "Lft" in pose proof (okS_incl s S0 S1 H I) as L end
  end end.
Ltac gd := solve [repeat first [eassumption | apply good_add_num | apply good_sub_num | apply good_num_sub | apply (good_mul_num Hp)
  | apply good_sub | apply good_add_cap | apply good_add_rv | apply good_add | apply good_neg | apply good_const ]].
Ltac gw := match goal with H : good _ _ ?S0 ?c |- wf ?S0 ?c => exact (proj1 H) | |- wf _ (cmul_num _ _) => apply (wf_mul_num Hp); [match goal with H : okS _ ?S0 |- In _ (su ?S0) => apply H end|gw]
   | |- wf _ (csub _ _) => apply wf_sub; gw | |- wf _ (cadd_cap _ _) => apply wf_add_cap; gw | |- wf _ (cadd_num _ _) => apply wf_add; [gw|apply wf_const; match goal with H : okS _ ?S0 |- In _ (su ?S0) => apply H end] end.
Ltac ncv := match goal with H : isvar ?S0 ?S1 ?c, K : okS ?s ?S0 |- nonconst ?c => exact (isvar_nonconst s S0 S1 c K H) end.


Ltac inclt := repeat first [apply incl_refl | eapply incl_tran; [eassumption|]].

Lemma wp_ce_add md s S0 P Q :
  okS s S0 -> goodP md s S0 P -> goodP md s S0 Q -> ncP P -> ncP Q ->
  (md <> Setup -> onc (cpe s P) /\ onc (cpe s Q)) ->
  wp md s S0 (ce_add d P Q) (fun S1 R =>
    goodP md s S1 R /\ (md <> Setup -> cpe s R = cpe s P +e cpe s Q) /\ newP S0 R /\ newdep S0 (cadd_cap (px R) (py R)) /\
    (nonconst (cadd_cap (px P) (py P)) -> nonconst (cadd_cap (px Q) (py Q)) -> bump S0 S1 6 6)).
Proof.
  intros HS [G1 G2] [G3 G4] [N1 N2] [N3 N4] HC. unfold ce_add.
  eapply wp_use; [apply (wp_cmul_nc Hp); auto|]. intros S1 v1 I1 [[Gv1 E1] [V1 B1]]. lift I1.
  eapply wp_use; [apply (wp_cmul_nc Hp); auto|]. intros S2 v2 I2 [[Gv2 E2] [V2 B2]]. lift I2.
  eapply wp_use; [apply (wp_cmul_nc Hp md s S2 v1 v2); auto; ncv|]. intros S3 v12 I3 [[Gv12 E3] [V3 B3]]. lift I3.
  eapply wp_use; [apply (wp_cmul_dep Hp md s S3); auto; gd|]. intros S4 u I4 [[Gu E4] [V4 B4]]. lift I4.
  assert (DN : md <> Setup -> 1 + d * ceval s v12 <> 0 /\ 1 - d * ceval s v12 <> 0).
  { intros Hm. destruct (HC Hm) as [C1 C2]. destruct (cmpl _ _ C1 C2) as [K1 K2]. cbn [cpe ex ey] in K1, K2.
    rewrite (E3 Hm), (E1 Hm), (E2 Hm). split; [intros X; apply K1|intros X; apply K2]; rewrite <- X; ring. }
  assert (Nv : nonconst v12) by ncv.
  eapply wp_use; [apply (wp_cdiv_nc Hp md s S4); auto; try gd|].
  { apply (newdep_nonconst s S1); auto. apply (newdep_cap_r Hp); [apply (isvar_newdep Hp _ S2); auto|apply Gv1]. }
  { apply (nc_add_num S4); [gw|]. apply (nc_mul_num Hp S4); auto; [apply d_neq0|gw]. }
  { intros ->. rewrite ceval_add_num, ceval_mul_num by apply HS. intros X. apply (proj1 (DN ltac:(discriminate))). rewrite <- X. ring. }
  intros S5 x I5 [Gx [Ex [Vx B5]]]. lift I5.
  eapply wp_use; [apply (wp_cdiv_nc Hp md s S5); auto; try gd|].
  { destruct V4 as [V4|[c [k [Hc ->]]]].
    - apply (newdep_nonconst s S3); auto. repeat apply (newdep_sub_l Hp); [apply (isvar_newdep Hp _ S4); auto|gw|gw].
    - apply (newdep_nonconst s S1); auto. apply (newdep_sub_r Hp); [apply (isvar_newdep Hp _ S2); auto|].
      destruct Hc as [-> | ->]; gw. }
  { apply (nc_num_sub Hp S5); [gw|]. apply (nc_mul_num Hp S5); auto; [apply d_neq0|gw]. }
  { intros ->. rewrite ceval_num_sub, ceval_mul_num by apply HS. intros X. apply (proj2 (DN ltac:(discriminate))). rewrite <- X. ring. }
  intros S6 y I6 [Gy [Ey [Vy B6]]]. lift I6.
  apply wp_ret. split; [split; auto|]. split; [|split; [|split]].
  - intros Hm. specialize (Ex Hm). specialize (Ey Hm). destruct (DN Hm) as [D1 D2].
    rewrite ceval_add_num, ceval_add_cap, ceval_mul_num in Ex by apply HS.
    rewrite ceval_num_sub, !ceval_sub, ceval_mul_num in Ey by apply HS.
    rewrite (E4 Hm), !ceval_add_cap in Ey. rewrite (E3 Hm) in *. rewrite (E1 Hm), (E2 Hm) in *.
    set (x1 := ceval s (px P)) in *. set (y1 := ceval s (py P)) in *. set (x2 := ceval s (px Q)) in *. set (y2 := ceval s (py Q)) in *.
    assert (K1 : 1 + d * x1 * x2 * y1 * y2 <> 0) by (intros X; apply D1; rewrite <- X; ring).
    assert (K2 : 1 - d * x1 * x2 * y1 * y2 <> 0) by (intros X; apply D2; rewrite <- X; ring).
    unfold eadd. apply e_ext; cbn [cpe ex ey]; apply (div_val Hp); auto; fold x1 x2 y1 y2.
    + transitivity (ceval s x * (x1 * y2 * (x2 * y1) * d + 1)); [cbn [px]; ring|]. rewrite Ex. ring.
    + transitivity (ceval s y * (1 - x1 * y2 * (x2 * y1) * d)); [cbn [py]; ring|]. rewrite Ey. ring.
  - split; [eapply newdep_incl; [|eapply (isvar_newdep Hp S4); eauto]|eapply newdep_incl; [|eapply (isvar_newdep Hp S5); eauto]]; inclt.
  - cbn [px py]. eapply (newdep_incl S0 S5); [inclt|]. apply (newdep_cap_r Hp); [apply (isvar_newdep Hp _ S6); auto|gw].
  - intros N5 N6. specialize (B4 N5 N6).
    exact (bump_trans _ _ _ _ _ _ _ (bump_trans _ _ _ _ _ _ _ (bump_trans _ _ _ _ _ _ _ (bump_trans _ _ _ _ _ _ _ (bump_trans _ _ _ _ _ _ _ B1 B2) B3) B4) B5) B6).
Qed.


Lemma wp_ce_double md s S0 P :
  okS s S0 -> goodP md s S0 P -> ncP P -> (md <> Setup -> onc (cpe s P)) ->
  wp md s S0 (ce_double d P) (fun S1 R =>
    goodP md s S1 R /\ (md <> Setup -> cpe s R = cpe s P +e cpe s P) /\ newP S0 R /\ newdep S0 (cadd_cap (px R) (py R)) /\
    (nonconst (cadd_cap (px P) (py P)) -> bump S0 S1 5 5)).
Proof.
  intros HS [G1 G2] [N1 N2] HC. unfold ce_double, csquare. pose proof (num2_neq0 Hp d A B Hm1 Hd HM) as H2.
  eapply wp_use; [apply (wp_cmul_nc Hp); auto|]. intros S1 v I1 [[Gv E1] [V1 B1]]. lift I1.
  eapply wp_use; [apply (wp_cmul_nc Hp md s S1 v v); auto; ncv|]. intros S2 v2 I2 [[Gv2 E2] [V2 B2]]. lift I2.
  eapply wp_use; [apply (wp_cmul_dep Hp md s S2); auto; gd|]. intros S3 u I3 [[Gu E3] [V3 B3]]. lift I3.
  assert (DN : md <> Setup -> 1 + d * ceval s v2 <> 0 /\ 1 - d * ceval s v2 <> 0).
  { intros Hm. pose proof (HC Hm) as C1. destruct (cmpl _ _ C1 C1) as [K1 K2]. cbn [cpe ex ey] in K1, K2.
    rewrite (E2 Hm), (E1 Hm). split; [intros X; apply K1|intros X; apply K2]; rewrite <- X; ring. }
  assert (Nv : nonconst v) by ncv. assert (Nv2 : nonconst v2) by ncv.
  eapply wp_use; [apply (wp_cdiv_nc Hp md s S3); auto; try gd|].
  { apply (nc_mul_num Hp S3); auto. gw. }
  { apply (nc_add_num S3); [gw|]. apply (nc_mul_num Hp S3); auto; [apply d_neq0|gw]. }
  { intros ->. rewrite ceval_add_num, ceval_mul_num by apply HS. intros X. apply (proj1 (DN ltac:(discriminate))). rewrite <- X. ring. }
  intros S4 x I4 [Gx [Ex [Vx B4]]]. lift I4.
  eapply wp_use; [apply (wp_cdiv_nc Hp md s S4); auto; try gd|].
  { destruct V3 as [V3|[c [k [Hc ->]]]].
    - apply (newdep_nonconst s S2); auto. apply (newdep_sub_l Hp); [apply (isvar_newdep Hp _ S3); auto|gw].
    - apply (newdep_nonconst s S0); auto. apply (newdep_sub_r Hp); [apply (newdep_mul_num Hp); auto; apply (isvar_newdep Hp _ S1); auto|].
      destruct Hc as [-> | ->]; gw. }
  { apply (nc_num_sub Hp S4); [gw|]. apply (nc_mul_num Hp S4); auto; [apply d_neq0|gw]. }
  { intros ->. rewrite ceval_num_sub, ceval_mul_num by apply HS. intros X. apply (proj2 (DN ltac:(discriminate))). rewrite <- X. ring. }
  intros S5 y I5 [Gy [Ey [Vy B5]]]. lift I5.
  apply wp_ret. split; [split; auto|]. split; [|split; [|split]].
  - intros Hm. specialize (Ex Hm). specialize (Ey Hm). destruct (DN Hm) as [D1 D2].
    rewrite ceval_add_num, !ceval_mul_num in Ex by apply HS.
    rewrite ceval_num_sub, !ceval_sub, !ceval_mul_num in Ey by apply HS.
    rewrite (E3 Hm), !ceval_add_cap in Ey. rewrite (E2 Hm) in *. rewrite (E1 Hm) in *. rewrite num2 in Ex, Ey.
    set (x1 := ceval s (px P)) in *. set (y1 := ceval s (py P)) in *.
    assert (K1 : 1 + d * x1 * x1 * y1 * y1 <> 0) by (intros X; apply D1; rewrite <- X; ring).
    assert (K2 : 1 - d * x1 * x1 * y1 * y1 <> 0) by (intros X; apply D2; rewrite <- X; ring).
    unfold eadd. apply e_ext; cbn [cpe ex ey]; apply (div_val Hp); auto; fold x1 y1.
    + transitivity (ceval s x * (x1 * y1 * (x1 * y1) * d + 1)); [cbn [px]; ring|]. rewrite Ex. ring.
    + transitivity (ceval s y * (1 - x1 * y1 * (x1 * y1) * d)); [cbn [py]; ring|]. rewrite Ey. ring.
  - split; [eapply newdep_incl; [|eapply (isvar_newdep Hp S3); eauto]|eapply newdep_incl; [|eapply (isvar_newdep Hp S4); eauto]]; inclt.
  - cbn [px py]. eapply (newdep_incl S0 S4); [inclt|]. apply (newdep_cap_r Hp); [apply (isvar_newdep Hp _ S5); auto|gw].
  - intros N5. specialize (B3 N5 N5).
    exact (bump_trans _ _ _ _ _ _ _ (bump_trans _ _ _ _ _ _ _ (bump_trans _ _ _ _ _ _ _ (bump_trans _ _ _ _ _ _ _ B1 B2) B3) B4) B5).
Qed.

Lemma wp_ce_cofactor md s S0 P :
  okS s S0 -> goodP md s S0 P -> ncP P -> (md <> Setup -> onc (cpe s P)) ->
  wp md s S0 (ce_mul_by_cofactor d P) (fun S1 R =>
    goodP md s S1 R /\ (md <> Setup -> cpe s R = emul d 8 (cpe s P)) /\ newP S0 R /\ newdep S0 (cadd_cap (px R) (py R)) /\
    (nonconst (cadd_cap (px P) (py P)) -> bump S0 S1 15 15)).
Proof.
  intros HS G N HC. unfold ce_mul_by_cofactor.
  eapply wp_use; [apply (wp_ce_double md s S0 P); auto|]. intros S1 P1 I1 [G1 [E1 [N1 [M1 B1]]]]. pose proof (okS_incl s S0 S1 HS I1) as HS1.
  assert (C1 : md <> Setup -> onc (cpe s P1)) by (intros Hm; rewrite (E1 Hm); apply (onc_add Hp d Hm1 Hd); auto).
  cbv beta. eapply wp_use; [apply (wp_ce_double md s S1 P1); auto; exact (newP_ncP s S0 P1 HS N1)|]. intros S2 P2 I2 [G2 [E2 [N2 [M2 B2]]]]. pose proof (okS_incl s S1 S2 HS1 I2) as HS2.
  assert (C2 : md <> Setup -> onc (cpe s P2)) by (intros Hm; rewrite (E2 Hm); apply (onc_add Hp d Hm1 Hd); auto).
  cbv beta. eapply wp_mono; [apply (wp_ce_double md s S2 P2); auto; exact (newP_ncP s S1 P2 HS1 N2)|]. intros S3 P3 I3 [G3 [E3 [N3 [M3 B3]]]].
  split; auto. split; [|split; [|split]].
  - intros Hm. rewrite (E3 Hm), (E2 Hm), (E1 Hm). symmetry. apply emul_8; auto.
  - eapply newP_incl; [|exact N3]. inclt.
  - eapply newdep_incl; [|exact M3]. inclt.
  - intros Nn. specialize (B1 Nn). specialize (B2 (newdep_nonconst s S0 _ HS M1)). specialize (B3 (newdep_nonconst s S1 _ HS1 M2)).
    exact (bump_trans _ _ _ _ _ _ _ (bump_trans _ _ _ _ _ _ _ B1 B2) B3).
Qed.

Lemma wp_enforce md s S0 (a b c : CNum p) :
  (md = Honest -> ceval s a * ceval s b = ceval s c) ->
  wp md s S0 (enforce a b c) (fun S1 _ => (md <> Setup -> ceval s a * ceval s b = ceval s c) /\ su S1 = su S0 /\ bump S0 S1 0 1).
Proof. intros H. cbn. split; auto. intros H2. repeat split; auto; cbn; lia. Qed.

Lemma wp_ce_in_curve md s S0 P :
  okS s S0 -> goodP md s S0 P -> (md = Honest -> onc (cpe s P)) ->
  wp md s S0 (ce_assert_in_curve d P) (fun S1 _ =>
    (md <> Setup -> onc (cpe s P)) /\ (ncP P -> bump S0 S1 2 3)).
Proof.
  intros HS [G1 G2] HC. unfold ce_assert_in_curve, csquare.
  eapply wp_use; [apply (wp_cmul_dep Hp); auto|]. intros S1 x2 I1 [[Gx E1] [_ B1]]. lift I1.
  eapply wp_use; [apply (wp_cmul_dep Hp); auto|]. intros S2 y2 I2 [[Gy E2] [_ B2]]. lift I2.
  assert (K : md <> Setup -> (ceval s (cmul_num x2 d) * ceval s y2 = ceval s (csub_num (csub y2 x2) n1) <-> onc (cpe s P))).
  { intros Hm. rewrite ceval_mul_num, ceval_sub_num, ceval_sub, (E1 Hm), (E2 Hm) by apply HS. unfold on_curve; cbn [cpe ex ey].
    set (x := ceval s (px P)). set (y := ceval s (py P)). split; intros H.
    - transitivity (1 + (y * y - x * x - 1)); [ring|]. rewrite <- H. ring.
    - transitivity ((1 + d * (x * x) * (y * y)) - 1); [ring|]. rewrite <- H. ring. }
  eapply wp_mono; [apply wp_enforce; intros Hm; apply K; [congruence|auto]|].
  intros S3 _ _ [H3 [H4 B3]]. split; [intros Hm; apply K; auto|].
  intros [N1 N2]. exact (bump_trans _ _ _ _ _ _ _ (bump_trans _ _ _ _ _ _ _ (B1 N1 N1) (B2 N2 N2)) B3).
Qed.

(** Conversions. *)
Lemma wp_ce_into_montgomery md s S0 P :
  okS s S0 -> goodP md s S0 P -> ncP P ->
  (md <> Setup -> onc (cpe s P) /\ ex (cpe s P) <> 0) ->
  wp md s S0 (ce_into_montgomery P) (fun S1 M =>
    goodP md s S1 M /\ (md <> Setup -> mrel A B (cpe s P) (cpm s M)) /\ newP S0 M /\ bump S0 S1 2 2).
Proof.
  intros HS [G1 G2] [N1 N2] HC. unfold ce_into_montgomery.
  assert (D : md <> Setup -> 1 - ceval s (py P) <> 0).
  { intros Hm X. destruct (HC Hm) as [C NX]. apply NX. rewrite (onc_y1 Hp d Hm1 Hd _ C); auto.
    cbn [cpe ey]. transitivity (1 - (1 - ceval s (py P))); [ring|]. rewrite X. ring. }
  eapply wp_use; [apply (wp_cdiv_nc Hp md s S0); auto; try gd|].
  { apply (nc_add_num S0); auto; gw. }
  { apply (nc_num_sub Hp S0); auto; gw. }
  { intros ->. rewrite ceval_num_sub by apply HS. apply D. discriminate. }
  intros S1 x I1 [Gx [Ex [Vx B1]]]. lift I1.
  eapply wp_use; [apply (wp_cdiv_nc Hp md s S1); auto; try gd|].
  { ncv. }
  { intros ->. apply (HC ltac:(discriminate)). }
  intros S2 y I2 [Gy [Ey [Vy B2]]]. lift I2.
  apply wp_ret. split; [split; auto|]. split; [|split].
  - intros Hm. specialize (Ex Hm). specialize (Ey Hm). destruct (HC Hm) as [C NX]. specialize (D Hm).
    rewrite ceval_num_sub, ceval_add_num in Ex by apply HS.
    destruct (mrel_of Hp d A B Hm1 Hd HM (cpe s P) C) as [M RM].
    { intros E. apply NX. rewrite E. reflexivity. }
    replace (cpm s (mkP x y)) with M; auto. destruct M as [u v]. destruct RM as [_ [R1 R2]]. cbn [mx my cpe ex ey] in *.
    assert (U : u = ceval s x). { apply (nmul_cancel_l Hp (1 - ceval s (py P))); auto. transitivity (u * (1 - ceval s (py P))); [ring|]. rewrite R1.
       transitivity (ceval s (py P) + 1); [ring|]. rewrite <- Ex. ring. }
    unfold cpm; cbn [px py]. rewrite U in *. f_equal.
    apply (nmul_cancel_l Hp (ceval s (px P))); auto. rewrite R2, <- Ey. ring.
  - split; [eapply (isvar_newdep Hp S0); eauto|eapply newdep_incl; [|eapply (isvar_newdep Hp S1); eauto]]; inclt.
  - exact (bump_trans _ _ _ _ _ _ _ B1 B2).
Qed.

Lemma wp_cm_into_edwards md s S0 M :
  okS s S0 -> goodP md s S0 M -> ncP M -> (md <> Setup -> onm (cpm s M)) ->
  wp md s S0 (cm_into_edwards M) (fun S1 R =>
    goodP md s S1 R /\ (md <> Setup -> cpe s R = unmont (cpm s M)) /\ newP S0 R /\ newdep S0 (cadd_cap (px R) (py R)) /\ bump S0 S1 5 5).
Proof.
  intros HS [G1 G2] [N1 N2] HC. unfold cm_into_edwards.
  eapply wp_use; [apply (wp_is_zero_nc Hp); auto|]. intros S1 yz I1 [[Gz Ez] [Nz [B1 [v [Vv Ezv]]]]]. lift I1.
  assert (Dy : md <> Setup -> ceval s (cadd_rv (py M) yz) = (if nis_zero (ceval s (py M)) then 1 else ceval s (py M)) /\ ceval s (cadd_rv (py M) yz) <> 0).
  { intros Hm. rewrite ceval_add_rv, (Ez Hm). destruct (nis_zero (ceval s (py M))) eqn:E; cbn [nbool].
    - apply nis_zero_eq in E. rewrite E. replace (0 + 1 : F) with (1 : F) by ring. split; auto. apply (n1_neq_n0 Hp).
    - apply nis_zero_neq in E. replace (ceval s (py M) + 0) with (ceval s (py M)) by ring. auto. }
  assert (Dx : md <> Setup -> ceval s (px M) + 1 <> 0).
  { intros Hm. exact (mont_u_m1 Hp d A B Hm1 Hd HM _ (HC Hm)). }
  eapply wp_use; [apply (wp_cdiv_nc Hp md s S1); auto; try gd|].
  { apply (newdep_nonconst s S0); auto. apply (newdep_rv_r Hp); [|gw]. rewrite Ezv. apply (newdep_sub_r Hp); [apply (isvar_newdep Hp _ S1); auto|apply wf_const, HS]. }
  { intros ->. apply (Dy ltac:(discriminate)). }
  intros S2 x I2 [Gx [Ex [Vx B2]]]. lift I2.
  eapply wp_use; [apply (wp_cdiv_nc Hp md s S2); auto; try gd|].
  { apply (nc_sub_num S2); auto; gw. }
  { apply (nc_add_num S2); auto; gw. }
  { intros ->. rewrite ceval_add_num by apply HS. apply (Dx ltac:(discriminate)). }
  intros S3 y I3 [Gy [Ey [Vy B3]]]. lift I3.
  apply wp_ret. split; [split; auto|]. split; [|split; [|split]].
  - intros Hm. specialize (Ex Hm). specialize (Ey Hm). destruct (Dy Hm) as [Dy1 Dy2]. specialize (Dx Hm).
    rewrite ceval_add_num, ceval_sub_num in Ey by apply HS. rewrite Dy1 in *.
    unfold unmont. apply e_ext; cbn [cpe cpm ex ey mx my px py]; apply (div_val Hp); auto.
  - split; [eapply newdep_incl; [|eapply (isvar_newdep Hp S1); eauto]|eapply newdep_incl; [|eapply (isvar_newdep Hp S2); eauto]]; inclt.
  - cbn [px py]. eapply (newdep_incl S0 S2); [inclt|]. apply (newdep_cap_r Hp); [apply (isvar_newdep Hp _ S3); auto|gw].
  - exact (bump_trans _ _ _ _ _ _ _ (bump_trans _ _ _ _ _ _ _ B1 B2) B3).
Qed.

(** Montgomery addition and doubling. *)
Lemma wp_cm_add_gen md s S0 M N :
  okS s S0 -> goodP md s S0 M -> goodP md s S0 N ->
  nonconst (csub (py N) (py M)) -> (as_const (csub (px N) (px M)) <> Some 0) ->
  (md = Honest -> mx (cpm s M) <> mx (cpm s N)) ->
  wp md s S0 (cm_add A B M N) (fun S1 R =>
    goodP md s S1 R /\ (md <> Setup -> mx (cpm s M) <> mx (cpm s N) -> cpm s R = m_chord A B (cpm s M) (cpm s N)) /\
    newP S0 R /\ newdep S0 (cadd_cap (px R) (py R)) /\ (nonconst (csub (px N) (px M)) -> bump S0 S1 3 3)).
Proof.
  intros HS [G1 G2] [G3 G4] Ny Nx HC. unfold cm_add, csquare. pose proof (B_neq0 Hp d A B Hm1 Hd HM) as HB.
  assert (D : mx (cpm s M) <> mx (cpm s N) -> ceval s (csub (px N) (px M)) <> 0).
  { rewrite ceval_sub. cbn [cpm mx]. intros H X. apply H. transitivity (ceval s (px N) - (ceval s (px N) - ceval s (px M))); [ring|]. rewrite X. ring. }
  eapply wp_use; [apply (wp_cdiv Hp md s S0); auto; try gd|].
  intros S1 l I1 [Gl [El [Nl [Bl _]]]]. lift I1.
  eapply wp_use; [apply (wp_cmul_nc Hp md s S1); auto; try gd|]. intros S2 l2 I2 [[Gl2 El2] [V2 B2]]. lift I2.
  cbv zeta.
  assert (Nt : nonconst (csub (cadd_num (cadd (cmul_num (px M) (num 2)) (px N)) A) (cmul_num l2 B))).
  { apply (newdep_nonconst s S1); auto. apply (newdep_sub_r Hp).
    - apply (newdep_mul_num Hp); auto. apply (isvar_newdep Hp _ S2); auto.
    - apply (good_add_num md s S1); auto. gd. }
  eapply wp_use; [apply (wp_cmul_nc Hp md s S2); auto; try gd|].
  intros S3 t I3 [[Gt Et] [Vt B3]]. lift I3.
  apply wp_ret. split; [split; gd|]. split; [|split; [|split]].
  - intros Hm NU. specialize (El Hm). specialize (El2 Hm). specialize (Et Hm). specialize (D NU).
    assert (L : ceval s l = (my (cpm s N) - my (cpm s M)) / (mx (cpm s N) - mx (cpm s M))).
    { apply (div_val Hp); [rewrite ceval_sub in D; exact D|]. rewrite !ceval_sub in El. exact El. }
    unfold m_chord, cpm; cbn [mx my px py]. cbn [cpm mx my] in L. rewrite <- L.
    assert (X : ceval s (csub (csub (csub_num (cmul_num l2 B) A) (px M)) (px N)) = B * (ceval s l * ceval s l) - A - ceval s (px M) - ceval s (px N)).
    { rewrite !ceval_sub, ceval_sub_num, ceval_mul_num, El2 by apply HS. ring. }
    f_equal; [exact X|]. rewrite ceval_sub, Et, ceval_sub, ceval_add_num, ceval_add, !ceval_mul_num, El2, num2 by apply HS. ring.
  - split; cbn [px py].
    + eapply (newdep_incl S0 S1); [inclt|]. apply (newdep_sub_l Hp); [apply (newdep_sub_l Hp); [|gw]|gw]. apply (newdep_sub_num s); auto. apply (newdep_mul_num Hp); auto. apply (isvar_newdep Hp _ S2); auto.
    + eapply (newdep_incl S0 S2); [inclt|]. apply (newdep_sub_l Hp); try gw. apply (isvar_newdep Hp _ S3); auto.
  - cbn [px py]. eapply (newdep_incl S0 S2); [inclt|]. apply (newdep_cap_r Hp).
    + apply (newdep_sub_l Hp); try gw. apply (isvar_newdep Hp _ S3); auto.
    + apply (good_sub md s S2); gd.
  - intros Nx'. exact (bump_trans _ _ _ _ _ _ _ (bump_trans _ _ _ _ _ _ _ (proj2 (Bl Nx')) B2) B3).
Qed.

Lemma wp_cm_double md s S0 M :
  okS s S0 -> goodP md s S0 M -> ncP M -> (md = Honest -> my (cpm s M) <> 0) ->
  wp md s S0 (cm_double A B M) (fun S1 R =>
    goodP md s S1 R /\ (md <> Setup -> my (cpm s M) <> 0 -> cpm s R = m_tangent A B (cpm s M)) /\ newP S0 R /\ bump S0 S1 4 4).
Proof.
  intros HS [G1 G2] [N1 N2] HC. unfold cm_double, csquare. pose proof (B_neq0 Hp d A B Hm1 Hd HM) as HB.
  pose proof (num2_neq0 Hp d A B Hm1 Hd HM) as H2. pose proof num3_neq0 as H3.
  assert (H2B : num 2 * B <> 0) by (apply (nmul_nonzero Hp); auto).
  eapply wp_use; [apply (wp_cmul_nc Hp md s S0); auto; try gd|]. intros S1 x2 I1 [[Gx2 Ex2] [V1 B1]]. lift I1.
  eapply wp_use; [apply (wp_cdiv_nc Hp md s S1); auto; try gd|].
  { apply (newdep_nonconst s S0); auto. apply (newdep_add_num s); auto. apply (newdep_cap_l Hp); [|gw].
    apply (newdep_mul_num Hp); auto. apply (isvar_newdep Hp _ S1); auto. }
  { apply (nc_mul_num Hp S1); auto; gw. }
  { intros Hm. rewrite ceval_mul_num. apply (nmul_nonzero Hp); auto. }
  intros S2 l I2 [Gl [El [Vl B2]]]. lift I2. assert (Nl : nonconst l) by ncv.
  eapply wp_use; [apply (wp_cmul_nc Hp md s S2); auto; try gd|]. intros S3 l2 I3 [[Gl2 El2] [V3 B3]]. lift I3.
  cbv zeta.
  assert (Nt : nonconst (csub (cadd_num (cmul_num (px M) (num 3)) A) (cmul_num l2 B))).
  { apply (newdep_nonconst s S2); auto. apply (newdep_sub_r Hp).
    - apply (newdep_mul_num Hp); auto. apply (isvar_newdep Hp _ S3); auto.
    - gw. }
  eapply wp_use; [apply (wp_cmul_nc Hp md s S3); auto; try gd|].
  intros S4 t I4 [[Gt Et] [Vt B4]]. lift I4.
  apply wp_ret. split; [split; gd|]. split; [|split].
  - intros Hm NV. specialize (Ex2 Hm). specialize (El Hm). specialize (El2 Hm). specialize (Et Hm).
    assert (D : (1 + 1) * B * my (cpm s M) <> 0) by (rewrite <- num2; repeat apply (nmul_nonzero Hp); auto).
    assert (L : ceval s l = ((1 + 1 + 1) * (mx (cpm s M) * mx (cpm s M)) + (1 + 1) * A * mx (cpm s M) + 1) / ((1 + 1) * B * my (cpm s M))).
    { apply (div_val Hp); auto. rewrite ceval_mul_num, ceval_add_num, ceval_add_cap, !ceval_mul_num, Ex2, num2, num3 in El by apply HS.
      cbn [cpm mx my] in *. transitivity (ceval s l * (ceval s (py M) * ((1 + 1) * B))); [ring|]. rewrite El. ring. }
    unfold m_tangent, cpm; cbn [mx my px py]. cbn [cpm mx my] in L. rewrite <- L.
    f_equal; [rewrite !ceval_sub, ceval_sub_num, !ceval_mul_num, El2, num2 by apply HS; ring|].
    rewrite ceval_sub, Et, ceval_sub, ceval_add_num, !ceval_mul_num, El2, num3 by apply HS. ring.
  - split; cbn [px py].
    + eapply (newdep_incl S0 S2); [inclt|]. apply (newdep_sub_l Hp); [|gw]. apply (newdep_sub_num s); auto. apply (newdep_mul_num Hp); auto. apply (isvar_newdep Hp _ S3); auto.
    + eapply (newdep_incl S0 S3); [inclt|]. apply (newdep_sub_l Hp); try gw. apply (isvar_newdep Hp _ S4); auto.
  - exact (bump_trans _ _ _ _ _ _ _ (bump_trans _ _ _ _ _ _ _ (bump_trans _ _ _ _ _ _ _ B1 B2) B3) B4).
Qed.
End Points.
