(** Circuit scalar multiplication with a constant base (circuit/ecc.rs:93-159). *)

From Verif Require Export CEccVar.
From Coq Require Import Lia.
Open Scope num_scope.

Section Mux.
Context {p : positive} (Hp : prime (Zpos p)).
Notation F := (Num p).
Add Field mx_field : (num_field Hp) (morphism (@num_morph p), constants [num_cst], power_tac (@num_power p) [num_pow_cst]).
Implicit Types (s : Index -> F).
Set Default Proof Using "Type*".

(** No non-trivial combination of the signals is constant. *)
Definition indep2 (a b : CNum p) : Prop :=
  forall k0 k1, (forall i, i <> I0 -> k0 * ccoef a i + k1 * ccoef b i = 0) -> k0 = 0 /\ k1 = 0.
Definition indep3 (a b c : CNum p) : Prop :=
  forall k0 k1 k2, (forall i, i <> I0 -> k0 * ccoef a i + k1 * ccoef b i + k2 * ccoef c i = 0) -> k0 = 0 /\ k1 = 0 /\ k2 = 0.

Lemma as_const_coef (c : CNum p) v i : as_const c = Some v -> i <> I0 -> ccoef c i = 0.
Proof. intros H Hi. destruct (num_eq_dec (ccoef c i) 0) as [|N]; auto. pose proof (coef_nonconst c i Hi N) as X. unfold nonconst in X. congruence. Qed.
Lemma indep3_2 a b c : indep3 a b c -> indep2 a b.
Proof.
  intros H k0 k1 E. destruct (H k0 k1 0) as [? [? _]]; auto. intros i Hi. rewrite (E i Hi). ring.
Qed.
Lemma indep2_nc a b : indep2 a b -> nonconst a /\ nonconst b.
Proof.
  intros H. pose proof (n1_neq_n0 Hp) as N. split; unfold nonconst.
  - destruct (as_const a) as [v|] eqn:E; auto. exfalso. destruct (H 1 0) as [X _]; auto.
    intros i Hi. rewrite (as_const_coef a v i E Hi). ring.
  - destruct (as_const b) as [v|] eqn:E; auto. exfalso. destruct (H 0 1) as [_ X]; auto.
    intros i Hi. rewrite (as_const_coef b v i E Hi). ring.
Qed.
Lemma indep3_nc a b c : indep3 a b c -> nonconst a /\ nonconst b /\ nonconst c.
Proof.
  intros H. destruct (indep2_nc a b (indep3_2 _ _ _ H)). split; auto. split; auto.
  pose proof (n1_neq_n0 Hp) as N. unfold nonconst. destruct (as_const c) as [v|] eqn:E; auto. exfalso. destruct (H 0 0 1) as [_ [_ X]]; auto.
  intros i Hi. rewrite (as_const_coef c v i E Hi). ring.
Qed.

Lemma wp_cmul_cases md s S0 a b :
  okS s S0 -> good md s S0 a -> good md s S0 b ->
  wp md s S0 (cmul a b) (fun S1 r => good md s S1 r /\
    ((nonconst a /\ nonconst b /\ isvar S0 S1 r /\ bump S0 S1 1 1) \/
     (exists v, as_const a = Some v /\ r = cmul_num b v /\ S1 = S0) \/
     (exists v, as_const b = Some v /\ r = cmul_num a v /\ S1 = S0))).
Proof.
  intros HS Ha Hb. destruct (as_const a) as [va|] eqn:Ea.
  - rewrite (cmul_const1 _ _ _ Ea). apply wp_ret. split; [apply good_mul_num; auto|]. right; left; eauto.
  - destruct (as_const b) as [vb|] eqn:Eb.
    + rewrite (cmul_const2 _ _ _ Ea Eb). apply wp_ret. split; [apply good_mul_num; auto|]. right; right; eauto.
    + eapply wp_mono; [apply (wp_cmul_nc Hp); auto|]. intros S1 r I [[G _] [V Bp]]. split; auto.
Qed.

(** The entries at 0..3 are not all equal. *)
Definition four_neq (col : list F) : Prop :=
  ~ (nth 1 col 0 = nth 0 col 0 /\ nth 2 col 0 = nth 0 col 0 /\ nth 3 col 0 = nth 0 col 0).
(** The entries at 4..7 are not those at 0..3 shifted by a constant. *)
Definition shift_neq (col : list F) : Prop :=
  ~ (nth 5 col 0 - nth 4 col 0 - nth 1 col 0 + nth 0 col 0 = 0 /\
     nth 6 col 0 - nth 4 col 0 - nth 2 col 0 + nth 0 col 0 = 0 /\
     nth 7 col 0 - nth 6 col 0 - nth 5 col 0 + nth 4 col 0 - nth 3 col 0 + nth 2 col 0 + nth 1 col 0 - nth 0 col 0 = 0).

Definition freshprod (s0 s1 s2 s10 : CNum p) : Prop :=
  exists j, j <> I0 /\ ccoef s10 j = 1 /\ ccoef s0 j = 0 /\ ccoef s1 j = 0 /\ ccoef s2 j = 0.

Lemma nonconst_or c : nonconst c \/ exists v : F, as_const c = Some v.
Proof. unfold nonconst. destruct (as_const c); eauto. Qed.

Lemma wp_mux_col_str md s S0 (s0 s1 s2 s10 : CNum p) (col : list F) :
  okS s S0 -> good md s S0 s0 -> good md s S0 s1 -> good md s S0 s2 -> good md s S0 s10 ->
  wp md s S0 (mux3_col s0 s1 s2 s10 col) (fun S1 r =>
    good md s S1 r /\
    (forall i, In i (su S0) -> i <> I0 -> ccoef s0 i = 0 -> ccoef s1 i = 0 -> ccoef s2 i = 0 -> ccoef s10 i = 0 -> ccoef r i = 0) /\
    (four_neq col -> freshprod s0 s1 s2 s10 -> indep2 s0 s1 -> (indep3 s0 s1 s2 \/ as_const s2 = Some 0) -> nonconst r) /\
    (freshprod s0 s1 s2 s10 -> indep2 s0 s1 -> shift_neq col -> nonconst s2 -> bump S0 S1 1 1) /\
    (forall v, as_const s2 = Some v -> bump S0 S1 0 0) /\
    (length (su S1) <= length (su S0) + 1 /\ sn S1 <= sn S0 + 1)%nat).
Proof.
  intros HS G0 G1 G2 G10. unfold mux3_col.
  set (k210 := nth 7 col 0 - nth 6 col 0 - nth 5 col 0 + nth 4 col 0 - nth 3 col 0 + nth 2 col 0 + nth 1 col 0 - nth 0 col 0).
  set (k21 := nth 6 col 0 - nth 4 col 0 - nth 2 col 0 + nth 0 col 0).
  set (k20 := nth 5 col 0 - nth 4 col 0 - nth 1 col 0 + nth 0 col 0).
  set (k2 := nth 4 col 0 - nth 0 col 0).
  set (k10 := nth 3 col 0 - nth 2 col 0 - nth 1 col 0 + nth 0 col 0).
  set (k1 := nth 2 col 0 - nth 0 col 0). set (k0 := nth 1 col 0 - nth 0 col 0). cbv zeta.
  set (left := cadd_num (cadd_cap (cadd_cap (cmul_num s10 k210) (cmul_num s1 k21)) (cmul_num s0 k20)) k2).
  assert (GL : good md s S0 left) by (unfold left; repeat first [apply good_add_num; auto | apply good_add_cap; auto | apply good_mul_num; auto]).
  assert (CL : forall i, i <> I0 -> ccoef left i = ccoef s10 i * k210 + ccoef s1 i * k21 + ccoef s0 i * k20).
  { intros i Hi. unfold left. now rewrite ccoef_add_num, !ccoef_add_cap, !ccoef_mul_num by auto. }
  eapply wp_use; [apply wp_cmul_cases; [auto|exact GL|exact G2]|].
  intros S1 t I1 [Gt Ct]. assert (HS1 : okS s S1) by (eapply okS_incl; eauto).
  assert (forall c, good md s S0 c -> good md s S1 c) as L by (intros; eapply good_incl; eauto).
  apply wp_ret. set (out := cadd_num _ (nth 0 col 0)).
  assert (CO : forall i, i <> I0 -> ccoef out i = ccoef t i + ccoef s10 i * k10 + ccoef s1 i * k1 + ccoef s0 i * k0).
  { intros i Hi. unfold out. now rewrite ccoef_add_num, !ccoef_add_cap, !ccoef_mul_num by auto. }
  assert (LC : freshprod s0 s1 s2 s10 -> indep2 s0 s1 -> forall v, as_const left = Some v -> k210 = 0 /\ k21 = 0 /\ k20 = 0).
  { intros [j [Hj [J1 [J2 [J3 J4]]]]] HI v Ev. pose proof (as_const_coef left v j Ev Hj) as X. rewrite (CL j Hj), J1, J2, J3 in X.
    assert (Z1 : k210 = 0) by (transitivity (1 * k210 + 0 * k21 + 0 * k20); [ring|exact X]). split; auto.
    destruct (HI k20 k21) as [Z2 Z3]; auto. intros i Hi. pose proof (as_const_coef left v i Ev Hi) as Y. rewrite (CL i Hi), Z1 in Y.
    rewrite <- Y. ring. }
  split; [|split; [|split; [|split; [|split]]]].
  - unfold out. repeat first [apply good_add_num; auto | apply good_add_cap; auto | apply good_mul_num; auto].
  - intros i Hin Hi E0 E1 E2 E10. rewrite (CO i Hi), E0, E1, E10. assert (ccoef t i = 0) as ->; [|ring].
    destruct Ct as [[_ [_ [V _]]]|[[v [Ev [-> _]]]|[v [Ev [-> _]]]]].
    + apply (isvar_coef Hp) in V. destruct V as [j [N1 [N2 V]]]. rewrite V. destruct (ieqb j i) eqn:E; auto. apply ieqb_eq in E; subst; contradiction.
    + rewrite ccoef_mul_num, E2. ring.
    + rewrite ccoef_mul_num, (CL i Hi), E0, E1, E10. ring.
  - intros H4 HF HI H3. destruct (nonconst_or out) as [|[v Ev]]; auto. exfalso. apply H4. clear H4.
    assert (CZ : forall i, i <> I0 -> ccoef t i + ccoef s10 i * k10 + ccoef s1 i * k1 + ccoef s0 i * k0 = 0)
      by (intros i Hi; rewrite <- (CO i Hi); exact (as_const_coef _ _ _ Ev Hi)).
    assert (T0 : (exists va, k210 = 0 /\ k21 = 0 /\ k20 = 0 /\ forall i, i <> I0 -> ccoef t i = ccoef s2 i * va) /\ indep3 s0 s1 s2
               \/ (forall i, i <> I0 -> ccoef t i = 0)).
    { destruct Ct as [[NL [N2 [V _]]]|[[va [Ea [-> _]]]|[vb [Eb [-> _]]]]].
      - exfalso. apply (isvar_coef Hp) in V. destruct V as [j [N1 [_ V]]].
        assert (Hj : j <> I0) by (intros ->; apply N1, HS). specialize (CZ j Hj). rewrite V, (proj2 (ieqb_eq j j) eq_refl) in CZ.
        rewrite (wf_coef_fresh S0 s10 j), (wf_coef_fresh S0 s1 j), (wf_coef_fresh S0 s0 j) in CZ by (auto; first [apply G10|apply G1|apply G0]).
        apply (n1_neq_n0 Hp). rewrite <- CZ. ring.
      - destruct (LC HF HI va Ea) as [Z1 [Z2 Z3]]. destruct H3 as [H3|E2].
        + left. split; auto. exists va. repeat split; auto. intros i Hi. apply ccoef_mul_num.
        + right. intros i Hi. rewrite ccoef_mul_num, (as_const_coef s2 0 i E2 Hi). ring.
      - destruct H3 as [H3|E2].
        + apply indep3_nc in H3. destruct H3 as [_ [_ X]]. unfold nonconst in X. congruence.
        + right. intros i Hi. rewrite ccoef_mul_num. assert (vb = 0) as -> by congruence. ring. }
    assert (K10 : k10 = 0 /\ k1 = 0 /\ k0 = 0).
    { destruct HF as [j [Hj [J1 [J2 [J3 J4]]]]]. destruct T0 as [[[va [_ [_ [_ TV]]]] H3']|TV].
      - assert (Z1 : k10 = 0). { pose proof (CZ j Hj) as X. rewrite TV, J1, J2, J3, J4 in X by auto. rewrite <- X. ring. } split; auto.
        destruct (H3' k0 k1 va) as [? [? ?]]; auto. intros i Hi. pose proof (CZ i Hi) as X. rewrite TV, Z1 in X by auto. rewrite <- X. ring.
      - assert (Z1 : k10 = 0). { pose proof (CZ j Hj) as X. rewrite TV, J1, J2, J3 in X by auto. rewrite <- X. ring. } split; auto.
        destruct (HI k0 k1) as [? ?]; auto. intros i Hi. pose proof (CZ i Hi) as X. rewrite TV, Z1 in X by auto. rewrite <- X. ring. }
    destruct K10 as [Z1 [Z2 Z3]].
    assert (X1 : nth 1 col 0 = nth 0 col 0) by (apply (sub_eq0 Hp); exact Z3).
    assert (X2 : nth 2 col 0 = nth 0 col 0) by (apply (sub_eq0 Hp); exact Z2). split; auto. split; auto.
    unfold k10 in Z1. rewrite X1, X2 in Z1. transitivity (nth 3 col 0 - nth 0 col 0 - nth 0 col 0 + nth 0 col 0 + nth 0 col 0); [ring|]. rewrite Z1. ring.
  - intros HF HI HN N2. destruct Ct as [[_ [_ [_ Bp]]]|[[va [Ea _]]|[vb [Eb _]]]]; auto.
    + exfalso. apply HN. destruct (LC HF HI va Ea) as [Z1 [Z2 Z3]]. auto.
    + unfold nonconst in N2. congruence.
  - intros v Ev. destruct Ct as [[_ [N2 _]]|[[va [Ea [_ ->]]]|[vb [Eb [_ ->]]]]]; try apply bump_refl. unfold nonconst in N2. congruence.
  - destruct Ct as [[_ [_ [_ [B1 B2]]]]|[[va [Ea [_ ->]]]|[vb [Eb [_ ->]]]]]; lia.
Qed.

(** The two columns of a window. *)
Lemma wp_mux3_str md s S0 (s0 s1 s2 : CNum p) (cx cy : list F) :
  okS s S0 -> good md s S0 s0 -> good md s S0 s1 -> good md s S0 s2 -> length cx = 8%nat -> length cy = 8%nat ->
  wp md s S0 (c_mux3 [s0; s1; s2] [cx; cy]) (fun S1 r => exists x y, r = [x; y] /\
    (forall i, In i (su S0) -> i <> I0 -> ccoef s0 i = 0 -> ccoef s1 i = 0 -> ccoef s2 i = 0 -> ccoef x i = 0 /\ ccoef y i = 0) /\
    (indep2 s0 s1 -> (indep3 s0 s1 s2 \/ as_const s2 = Some 0) -> (four_neq cx -> nonconst x) /\ (four_neq cy -> nonconst y)) /\
    (indep2 s0 s1 -> nonconst s2 -> shift_neq cx -> shift_neq cy -> bump S0 S1 3 3) /\
    (forall v, nonconst s0 -> nonconst s1 -> as_const s2 = Some v -> bump S0 S1 1 1) /\
    (forall v w, as_const s1 = Some v -> as_const s2 = Some w -> bump S0 S1 0 0) /\
    (length (su S1) <= length (su S0) + 3 /\ sn S1 <= sn S0 + 3)%nat).
Proof.
  intros HS G0 G1 G2 Lx Ly. unfold c_mux3. cbn [forallb]. rewrite Lx, Ly. cbn [Nat.eqb andb passert pbind].
  eapply wp_use; [apply wp_cmul_cases; [auto|exact G0|exact G1]|].
  intros S1 s10 I1 [G10 C10]. lift I1. cbn [pmapM].
  eapply wp_use; [apply (wp_mux_col_str md s S1 s0 s1 s2 s10 cx); auto|]. intros S2 x I2 [Gx [Ax [Bx [Cx1 [Cx2 Cx3]]]]]. lift I2.
  apply wp_bind. eapply wp_use; [apply (wp_mux_col_str md s S2 s0 s1 s2 s10 cy); auto|]. intros S3 y I3 [Gy [Ay [By [Cy1 [Cy2 Cy3]]]]]. lift I3.
  apply wp_bind, wp_ret, wp_ret, wp_ret. exists x, y. split; auto.
  assert (A10 : forall i, In i (su S0) -> i <> I0 -> ccoef s0 i = 0 -> ccoef s1 i = 0 -> ccoef s10 i = 0).
  { intros i Hin Hi E0 E1. destruct C10 as [[_ [_ [V _]]]|[[v [Ev [-> _]]]|[v [Ev [-> _]]]]].
    + apply (isvar_coef Hp) in V. destruct V as [j [N1 [N2 V]]]. rewrite V. destruct (ieqb j i) eqn:E; auto. apply ieqb_eq in E; subst; contradiction.
    + rewrite ccoef_mul_num, E1. ring.
    + rewrite ccoef_mul_num, E0. ring. }
  assert (FP : nonconst s0 -> nonconst s1 -> freshprod s0 s1 s2 s10 /\ bump S0 S1 1 1).
  { unfold nonconst. intros N0 N1. destruct C10 as [[_ [_ [V Bp]]]|[[v [Ev _]]|[v [Ev _]]]]; try congruence. split; auto.
    apply (isvar_coef Hp) in V. destruct V as [j [M1 [M2 V]]]. exists j. split; [intros ->; apply M1, HS|].
    rewrite V, (proj2 (ieqb_eq j j) eq_refl). split; auto.
    repeat split; apply (wf_coef_fresh S0); auto; first [apply G0|apply G1|apply G2]. }
  split; [|split; [|split; [|split; [|split]]]].
  - intros i Hin Hi E0 E1 E2. specialize (A10 i Hin Hi E0 E1). split; [apply Ax|apply Ay]; auto.
  - intros HI H3. destruct (indep2_nc _ _ HI) as [N0 N1]. destruct (FP N0 N1) as [FP' _]. split; auto.
  - intros HI N2 Nx Ny. destruct (indep2_nc _ _ HI) as [N0 N1]. destruct (FP N0 N1) as [FP' [Q1 Q2]].
    destruct (Cx1 FP' HI Nx N2), (Cy1 FP' HI Ny N2). split; lia.
  - intros v N0 N1 E2. destruct (FP N0 N1) as [FP' [Q1 Q2]]. destruct (Cx2 v E2), (Cy2 v E2). split; lia.
  - intros v w E1 E2. destruct (Cx2 w E2), (Cy2 w E2). destruct C10 as [[_ [N _]]|[[u [Ev [_ ->]]]|[u [Ev [_ ->]]]]]; try (split; lia).
    unfold nonconst in N. congruence.
  - destruct C10 as [[_ [_ [_ [? ?]]]]|[[u [Ev [_ ->]]]|[u [Ev [_ ->]]]]]; lia.
Qed.
End Mux.

Section Const.
Context {p l : positive} (J : JubJub p l) (K : jubjub_ok J) (L8 : (8 < Zpos l)%Z).
Notation F := (Num p).
Let Hp := j_p _ K.
Let Hm1 := j_m1 _ K.
Let Hd := j_d _ K.
Let HM := j_mont _ K.
Notation d := (jd J).
Notation A := (ja J).
Notation B := (jb J).
Add Field cc_field : (num_field Hp) (morphism (@num_morph p), constants [num_cst], power_tac (@num_power p) [num_pow_cst]).
Notation onc := (on_curve d).
Notation onm := (on_mont A B).
Notation "P +e Q" := (eadd d P Q) (at level 50, left associativity).
Notation sub := (sub J).
Set Default Proof Using "Type*".
Implicit Types (s : Index -> F).
Opaque emul.

(** The table of a window holds R, 2R, ..., 8R. *)
Definition istable (R : EPoint p) (cx cy : list F) : Prop :=
  length cx = 8%nat /\ length cy = 8%nat /\
  forall v, (v < 8)%nat -> mrel A B (emul d (Z.of_nat v + 1) R) (mkM (nth v cx 0) (nth v cy 0)).

Lemma x_into_montgomery_ok X : xok d X -> aff X <> e_zero -> exists M, x_into_montgomery X = Ok (Some M) /\ mrel A B (aff X) M.
Proof.
  intros [Z [E C]] N. unfold x_into_montgomery. rewrite (x_into_affine_ok Hp d Hm1 Hd) by auto. cbn [rbind].
  exact (proj2 (e_into_montgomery_ok Hp d A B Hm1 Hd HM (aff X) C) N).
Qed.

Lemma gen_loop_ok R X : xok d X -> aff X = R -> onc R -> forall n q k, xok d q -> aff q = emul d k R ->
  (forall v, (v < n)%nat -> emul d (k + Z.of_nat v) R <> e_zero) ->
  exists t, gen_table_loop n d X q = Ok t /\ length t = n /\
    forall v, (v < n)%nat -> mrel A B (emul d (k + Z.of_nat v) R) (mkM (fst (nth v t (0, 0))) (snd (nth v t (0, 0)))).
Proof.
  intros HX EX HR n. induction n as [|n IH]; intros q k Hq Eq HN; cbn [gen_table_loop].
  - exists []. split; [auto|]. split; [auto|]. intros; lia.
  - destruct (x_into_montgomery_ok q Hq) as [M [E1 R1]].
    { rewrite Eq. specialize (HN 0%nat). rewrite Z.add_0_r in HN. apply HN; lia. }
    rewrite E1. cbn [rbind unwrap].
    destruct (x_add_ok Hp d Hm1 Hd q X Hq HX) as [Hq' Eq'].
    destruct (IH (x_add d q X) (k + 1)%Z) as [t [E2 [L2 T2]]]; auto.
    { rewrite Eq', Eq, EX, (em_add _ K), (em_1 _ K) by auto. reflexivity. }
    { intros v Hv. replace (k + 1 + Z.of_nat v)%Z with (k + Z.of_nat (S v))%Z by lia. apply HN; lia. }
    rewrite E2. cbn [rbind]. eexists; split; [reflexivity|]. cbn [length]. split; [now rewrite L2|].
    intros v Hv. destruct v as [|v]; cbn [nth fst snd].
    + rewrite Z.add_0_r, <- Eq. destruct M; exact R1.
    + replace (k + Z.of_nat (S v))%Z with (k + 1 + Z.of_nat v)%Z by lia. apply T2; lia.
Qed.

Lemma small_neq0 R v : sub R -> R <> e_zero -> (v < 8)%nat -> emul d (Z.of_nat v + 1) R <> e_zero.
Proof. intros HR NR Hv. apply (em_neq0 _ K); auto; lia. Qed.

Lemma gen_table_ok X R : xok d X -> aff X = R -> sub R -> R <> e_zero ->
  exists cx cy, gen_table d X = Ok [cx; cy] /\ istable R cx cy.
Proof.
  intros HX EX HR NR. unfold gen_table.
  destruct (gen_loop_ok R X HX EX (proj1 HR) 8 X 1%Z HX) as [t [E [Lt T]]].
  { now rewrite (em_1 _ K) by apply HR. }
  { intros v Hv. rewrite Z.add_comm. now apply small_neq0. }
  rewrite E. cbn [rbind]. eexists _, _; split; [reflexivity|]. split; [now rewrite map_length|]. split; [now rewrite map_length|].
  intros v Hv. specialize (T v Hv). rewrite (Z.add_comm _ 1).
  pose proof (map_nth fst t (0, 0) v) as X1. pose proof (map_nth snd t (0, 0) v) as X2. cbn [fst snd] in X1, X2. rewrite X1, X2. exact T.
Qed.

Lemma mult_x_neq R cx cy i j : sub R -> R <> e_zero -> istable R cx cy -> (i < 4)%nat -> (j < 4)%nat -> i <> j ->
  nth i cx 0 <> nth j cx 0.
Proof.
  intros HR NR [_ [_ T]] Hi Hj Hij.
  pose proof (T i ltac:(lia)) as Ti. pose proof (T j ltac:(lia)) as Tj.
  apply (mrel_u_neq Hp d A B Hm1 Hd HM _ _ _ _ (onc_em _ K _ _ (proj1 HR)) (onc_em _ K _ _ (proj1 HR)) Ti Tj).
  - intros E. assert (X : emul d (Z.of_nat i + 1 + - (Z.of_nat j + 1)) R = e_zero).
    { rewrite (em_add _ K), (em_opp _ K), E by apply HR. apply (ad_nr _ K). apply (onc_em _ K), HR. }
    revert X. apply (em_neq0_rel _ K); auto. intros D. destruct D as [q Hq]. assert (q = 0 \/ q <= -1 \/ 1 <= q)%Z by lia. nia.
  - intros E. assert (X : emul d (Z.of_nat i + 1 + (Z.of_nat j + 1)) R = e_zero).
    { rewrite (em_add _ K), E by apply HR. rewrite <- (em_opp _ K), <- (em_add _ K) by apply HR. replace (- (Z.of_nat j + 1) + (Z.of_nat j + 1))%Z with 0%Z by ring. apply (em_0 _ K). }
    revert X. apply (em_neq0 _ K); auto. lia.
Qed.

Lemma table_four R cx cy : sub R -> R <> e_zero -> istable R cx cy -> four_neq cx /\ four_neq cy.
Proof.
  intros HR NR HT. split.
  - intros [E _]. revert E. eapply mult_x_neq; eauto; lia.
  - intros [E1 [E2 E3]]. pose proof HT as [_ [_ T]].
    assert (C : forall v, (v < 4)%nat -> nth v cy 0 = nth 0 cy 0 ->
      nth v cx 0 * nth v cx 0 * nth v cx 0 + A * (nth v cx 0 * nth v cx 0) + nth v cx 0 = B * (nth 0 cy 0 * nth 0 cy 0)).
    { intros v Hv E. destruct (T v ltac:(lia)) as [X _]. unfold on_mont, nsquare in X; cbn [mx my] in X. rewrite E in X. rewrite X. ring. }
    apply (cubic_roots _ K (B * (nth 0 cy 0 * nth 0 cy 0)) (nth 0 cx 0) (nth 1 cx 0) (nth 2 cx 0) (nth 3 cx 0));
      first [apply C; [lia|auto] | eapply mult_x_neq; eauto; lia].
Qed.

Lemma x_double3_ok X : xok d X -> xok d (x_double3 X) /\ aff (x_double3 X) = emul d 8 (aff X).
Proof.
  intros HX. unfold x_double3.
  destruct (x_double_ok Hp d Hm1 Hd X HX) as [H1 E1]. destruct (x_double_ok Hp d Hm1 Hd _ H1) as [H2 E2]. destruct (x_double_ok Hp d Hm1 Hd _ H2) as [H3 E3].
  split; auto. rewrite E3, E2, E1. symmetry. apply (emul_8 Hp d A B Hm1 Hd HM). apply HX.
Qed.

Fixpoint ones (n : nat) : Z := match n with O => 0 | S n' => 1 + 8 * ones n' end.

Lemma start_loop_ok n : forall base acc, xok d base -> xok d acc ->
  xok d (start_loop n d base acc) /\ aff (start_loop n d base acc) = aff acc +e emul d (ones n) (aff base).
Proof.
  induction n as [|n IH]; intros base acc Hb Ha; cbn [start_loop ones].
  - split; auto. rewrite (em_0 _ K), (ad_0r _ K); auto. apply Ha.
  - destruct (x_double3_ok base Hb) as [Hb' Eb']. destruct (x_add_ok Hp d Hm1 Hd acc base Ha Hb) as [Ha' Ea'].
    destruct (IH (x_double3 base) (x_add d acc base) Hb' Ha') as [H1 E1]. split; auto.
    assert (Ob : onc (aff base)) by apply Hb. assert (Oa : onc (aff acc)) by apply Ha.
    rewrite E1, Eb', Ea', (em_add _ K), (em_1 _ K), Z.mul_comm, (em_mul _ K), (ad_assoc _ K) by (auto; repeat apply (onc_em _ K); auto). reflexivity.
Qed.

(** Bits of a window: independent, or padded with constants. *)
Definition wfirst (bits : list (CNum p)) : Prop :=
  match bits with s0 :: s1 :: s2 :: _ => indep2 s0 s1 /\ (indep3 s0 s1 s2 \/ as_const s2 = Some 0) | _ => True end.
Fixpoint wreg (n : nat) (bits : list (CNum p)) : Prop :=
  match n with
  | O => True
  | S n' =>
      match bits with
      | s0 :: s1 :: s2 :: bits' =>
          (indep3 s0 s1 s2 \/ (nonconst s0 /\ nonconst s1 /\ exists v, as_const s2 = Some v) \/ (exists v w, as_const s1 = Some v /\ as_const s2 = Some w)) /\ wreg n' bits'
      | _ => True
      end
  end.
Fixpoint wcost (n : nat) (bits : list (CNum p)) : nat :=
  match n with
  | O => 0
  | S n' =>
      match bits with
      | _ :: s1 :: s2 :: bits' => (match as_const s2 with None => 6 | Some _ => match as_const s1 with None => 4 | Some _ => 3 end end) + wcost n' bits'
      | _ => 0
      end
  end%nat.
Definition wnd (R : EPoint p) : Prop := forall cx cy, istable R cx cy -> shift_neq cx /\ shift_neq cy.

Lemma bval3 b0 b1 b2 : (0 <= bval [b0; b1; b2] < 8)%Z.
Proof. clear. destruct b0, b1, b2; cbn; lia. Qed.

Lemma wp_windows md s Sb R0 : okS s Sb -> sub R0 -> R0 <> e_zero -> forall n bits base acc S0 k w bs,
  okS s S0 -> incl (su Sb) (su S0) -> length bits = (3 * n)%nat -> Forall (good md s Sb) bits ->
  xok d base -> aff base = emul d w R0 -> ~ (Zpos l | w)%Z -> goodP md s S0 acc ->
  newP Sb acc \/ ((exists a b, acc = cp_from_const a b) /\ (0 < n)%nat /\ wfirst bits) ->
  (md <> Setup -> ebits s bits bs /\ mrel A B (T2 +e emul d k R0) (cpm s acc)) ->
  wp md s S0 (windows_loop n d A B bits base acc) (fun S1 acc' =>
    goodP md s S1 acc' /\ newP Sb acc' /\ (md <> Setup -> mrel A B (T2 +e emul d (k + w * (bval bs + ones n)) R0) (cpm s acc')) /\
    (wreg n bits -> (forall i, (i < n)%nat -> wnd (emul d (w * 8 ^ Z.of_nat i) R0)) -> bump S0 S1 (wcost n bits) (wcost n bits)) /\
    (length (su S1) <= length (su S0) + 6 * n /\ sn S1 <= sn S0 + 6 * n)%nat).
Proof.
  intros HSb HR NR n. induction n as [|n IH]; intros bits base acc S0 k w bs HS HI Hl Gb Xb Eb Hw Ga Da HV; cbn [windows_loop].
  - destruct bits; [|discriminate]. apply wp_ret. split; auto. destruct Da as [Da|[_ [X _]]]; [|lia]. split; auto. split; [|split].
    + intros Hm. destruct (HV Hm) as [V1 V2]. inversion V1; subst. cbn [bval ones]. replace (k + w * (0 + 0))%Z with k by ring. auto.
    + intros _ _. apply bump_refl.
    + lia.
  - destruct bits as [|s0 [|s1 [|s2 bits]]]; try (cbn [length] in Hl; lia).
    rewrite !Forall_cons_iff in Gb. destruct Gb as [G0 [G1 [G2 Gb]]].
    pose proof (good_incl _ _ _ _ _ G0 HI) as G0'. pose proof (good_incl _ _ _ _ _ G1 HI) as G1'. pose proof (good_incl _ _ _ _ _ G2 HI) as G2'.
    set (R := emul d w R0) in *.
    assert (SR : sub R) by now apply (sub_em _ K). assert (NR' : R <> e_zero) by now apply (em_neq0_rel _ K).
    destruct (gen_table_ok base R Xb Eb SR NR') as [cx [cy [Et HT]]]. destruct (table_four R cx cy SR NR' HT) as [F4x F4y].
    rewrite Et. cbn [plift pbind].
    eapply wp_use.
    { apply wp_and; [apply (wp_mux3 Hp md s S0 [s0; s1; s2] [cx; cy]); auto|apply (wp_mux3_str Hp md s S0 s0 s1 s2 cx cy); auto; apply HT].
      intros _. split; auto. destruct HT as [? [? _]]. constructor; [|constructor]; auto. }
    intros S1 r I1 [[Gr [_ [_ Er]]] [x [y [-> [C1 [C2 [C3 [C4 [C5 C6]]]]]]]]]. lift I1.
    rewrite !Forall_cons_iff in Gr. destruct Gr as [Gx [Gy _]].
    assert (BB : md <> Setup -> exists b0 b1 b2 bs', bs = b0 :: b1 :: b2 :: bs' /\ ebits s bits bs' /\
      mrel A B (emul d (w * (bval [b0; b1; b2] + 1)) R0) (mkM (ceval s x) (ceval s y))).
    { intros Hm. destruct (HV Hm) as [V1 _].
      inversion V1 as [|? b0 ? bs1 E0 V2]; subst. inversion V2 as [|? b1 ? bs2 E1 V3]; subst. inversion V3 as [|? b2 ? bs3 E2 V4]; subst.
      exists b0, b1, b2, bs3. split; auto. split; auto.
      assert (EB : ebits s [s0; s1; s2] [b0; b1; b2]) by (repeat constructor; auto).
      specialize (Er _ EB Hm). cbn [map] in Er. unfold mux_sel in Er. pose proof (bval3 b0 b1 b2) as HB.
      set (v := bval [b0; b1; b2]) in *. destruct HT as [_ [_ T]]. specialize (T (Z.to_nat v) ltac:(lia)).
      rewrite Z2Nat.id in T by lia. rewrite Z.mul_comm, (em_mul _ K) by apply HR. fold R. replace (ceval s x) with (nth (Z.to_nat v) cx 0) by congruence.
      replace (ceval s y) with (nth (Z.to_nat v) cy 0) by congruence. exact T. }
    assert (NN : nonconst (csub y (py acc)) /\ nonconst (csub x (px acc))).
    { destruct Da as [[D1 D2]|[[a [b ->]] [_ [W1 W2]]]].
      - assert (X : forall (c a : CNum p), wf S0 a -> newdep Sb a -> (forall i, In i (su S0) -> i <> I0 -> ~ In i (su Sb) -> ccoef c i = 0) -> nonconst (csub c a)).
        { intros c a Wa [i [Hi Ci]] Hc. assert (Hi0 : i <> I0) by (intros ->; apply Hi, HSb). apply (coef_nonconst _ i Hi0).
          rewrite ccoef_sub, Hc; auto.
          - intros X. apply Ci. transitivity (- (0 - ccoef a i)); [ring|]. rewrite X. ring.
          - destruct (in_dec ieq_dec i (su S0)) as [|N]; auto. exfalso. apply Ci. exact (wf_coef_fresh S0 a i Wa N). }
        assert (Y : forall i, In i (su S0) -> i <> I0 -> ~ In i (su Sb) -> ccoef x i = 0 /\ ccoef y i = 0).
        { intros i H1 H2 H3. apply C1; auto; apply (wf_coef_fresh Sb); auto; first [apply G0|apply G1|apply G2]. }
        split; apply X; auto; try apply Ga; intros; now apply Y.
      - destruct (C2 W1 W2) as [Nx Ny]. split; apply (nc_sub_const S1); try apply Gx; try apply Gy; auto. }
    destruct NN as [NY NX].
    assert (SA : sub (emul d k R0)) by now apply (sub_em _ K).
    eapply wp_use; [apply (wp_cm_add_gen Hp d A B Hm1 Hd HM md s S1 acc (mkP x y)); auto|].
    { split; auto. }
    { cbn [px]. unfold nonconst in NX. congruence. }
    { intros Hm. assert (Hm' : md <> Setup) by congruence. destruct (BB Hm') as [b0 [b1 [b2 [bs' [-> [E R1]]]]]].
      refine (acc_neq _ K _ _ _ _ SA _ (proj2 (HV Hm')) R1). now apply (sub_em _ K). }
    intros S2 acc2 I2 [G3 [E3 [N3 [_ B3]]]]. lift I2. specialize (B3 NX).
    destruct (x_double3_ok base Xb) as [Xb' Eb'].
    eapply wp_mono.
    { apply (IH bits (x_double3 base) acc2 S2 (k + w * (bval (firstn 3 bs) + 1))%Z (8 * w)%Z (skipn 3 bs)); auto.
      - inclt.
      - cbn [length] in Hl. lia.
      - rewrite Eb', Eb. unfold R. now rewrite <- (em_mul _ K) by apply HR.
      - intros D. destruct (prime_mult _ (j_l _ K) _ _ D) as [D2|]; auto. apply Z.divide_pos_le in D2; lia.
      - left. apply (newP_incl Sb S1); [inclt|auto].
      - intros Hm. destruct (BB Hm) as [b0 [b1 [b2 [bs' [-> [E R1]]]]]]. cbn [firstn skipn]. split; auto.
        rewrite (em_add _ K) by apply HR. rewrite (E3 Hm).
        + apply (acc_chord _ K); auto; [now apply (sub_em _ K)|apply (HV Hm)].
        + refine (acc_neq _ K _ _ _ _ SA _ (proj2 (HV Hm)) R1). now apply (sub_em _ K). }
    intros S3 acc3 I3 [G4 [N4 [E4 [B4 B5]]]]. split; auto. split; auto. split; [|split].
    + intros Hm. specialize (E4 Hm). destruct (BB Hm) as [b0 [b1 [b2 [bs' [-> [E R1]]]]]]. cbn [firstn skipn] in E4.
      replace (k + w * (bval (b0 :: b1 :: b2 :: bs') + ones (S n)))%Z with (k + w * (bval [b0; b1; b2] + 1) + 8 * w * (bval bs' + ones n))%Z; auto.
      cbn [bval ones]. ring.
    + intros [W1 W2] HND. cbn [wcost].
      assert (Q : bump S2 S3 (wcost n bits) (wcost n bits)).
      { apply B4; auto. intros i Hi. specialize (HND (S i) ltac:(lia)). rewrite Nat2Z.inj_succ, Z.pow_succ_r in HND by lia.
        replace (8 * w * 8 ^ Z.of_nat i)%Z with (w * (8 * 8 ^ Z.of_nat i))%Z by ring. exact HND. }
      assert (HND0 : shift_neq cx /\ shift_neq cy).
      { specialize (HND 0%nat ltac:(lia)). change (8 ^ Z.of_nat 0)%Z with 1%Z in HND. rewrite Z.mul_1_r in HND. exact (HND cx cy HT). }
      destruct W1 as [W1|[[W0 [W1 [v Ev]]]|[v [v' [Ev Ev']]]]].
      * pose proof (indep3_nc Hp _ _ _ W1) as [_ [Nc1 Nc2]]. destruct HND0 as [Q1 Q2]. destruct (C3 (indep3_2 Hp _ _ _ W1) Nc2 Q1 Q2) as [Q3 Q4].
        unfold nonconst in Nc2. rewrite Nc2. destruct B3, Q. split; lia.
      * unfold nonconst in *. rewrite Ev, W1. destruct (C4 v W0 W1 Ev), B3, Q. split; lia.
      * rewrite Ev', Ev. destruct (C5 v v' Ev Ev'), B3, Q. split; lia.
    + destruct B3. lia.
Qed.

(** The bits of the first window of a scalar: no non-trivial combination is constant. *)
Definition bfirst (bits : list (CNum p)) : Prop :=
  match bits with
  | s0 :: s1 :: [] => indep2 s0 s1
  | s0 :: s1 :: s2 :: _ => indep3 s0 s1 s2
  | _ => False
  end.
Definition padding (n : nat) : nat := Nat.modulo (3 - Nat.modulo n 3) 3.
Lemma padding_ok n : exists q, (n + padding n = 3 * q)%nat.
Proof.
  clear. unfold padding. pose proof (Nat.div_mod_eq n 3) as E. pose proof (Nat.mod_upper_bound n 3 ltac:(lia)) as Hr.
  set (q := Nat.div n 3) in *. set (r := Nat.modulo n 3) in *. clearbody q r.
  destruct r as [|[|[|]]]; try lia; [exists q|exists (S q)|exists (S q)]; cbn; lia.
Qed.
Definition nwin (n : nat) : nat := Nat.div (n + padding n) 3.

Lemma wp_ce_mul_const md s S0 (c : EPoint p) bits bs :
  okS s S0 -> sub c -> Forall (good md s S0) bits -> bfirst bits -> (md <> Setup -> ebits s bits bs) ->
  wp md s S0 (ce_mul_const J c bits) (fun S1 R =>
    goodP md s S1 R /\ (md <> Setup -> cpe s R = emul d (bval bs) c) /\
    (c = e_zero -> R = cp_from_const 0 1 /\ S1 = S0) /\
    (c <> e_zero -> newP S0 R /\ newdep S0 (cadd_cap (px R) (py R)) /\
      (wreg (nwin (length bits)) (bits ++ repeat (cbconst false) (padding (length bits))) ->
       (forall i, (i < nwin (length bits))%nat -> wnd (emul d (8 ^ Z.of_nat i) c)) ->
       let k := (wcost (nwin (length bits)) (bits ++ repeat (cbconst false) (padding (length bits))) + 5)%nat in bump S0 S1 k k) /\
      (sn S1 <= sn S0 + 6 * nwin (length bits) + 5)%nat)).
Proof.
  intros HS Hc Gb Hf Eb. unfold ce_mul_const. destruct (e_into_extended_ok Hp d Hm1 Hd c (proj1 Hc)) as [Xc Ec].
  pose proof (x_is_zero_iff Hp d Hm1 Hd (e_into_extended c) (proj1 Xc)) as Xz. rewrite Ec in Xz.
  destruct (x_is_zero (e_into_extended c)) eqn:Ez.
  - apply wp_ret. assert (c = e_zero) as -> by now apply Xz. split; [split; apply good_const; auto|]. split; [|split; [auto|congruence]].
    intros _. rewrite (em_zero _ K). apply e_ext; cbn [cpe cp_from_const px py ex ey e_zero]; apply ceval_const, HS.
  - assert (NZ : c <> e_zero) by (intros X; apply Xz in X; congruence). clear Xz.
    cbv zeta. change (Nat.modulo (3 - Nat.modulo (length bits) 3) 3) with (padding (length bits)). rewrite app_length, repeat_length. change (Nat.div (length bits + padding (length bits)) 3) with (nwin (length bits)).
    set (N := nwin (length bits)). set (bits' := bits ++ repeat (cbconst false) (padding (length bits))).
    assert (LN : (length bits + padding (length bits) = 3 * N)%nat).
    { destruct (padding_ok (length bits)) as [q Hq]. unfold N, nwin. rewrite Hq, Nat.mul_comm, Nat.div_mul; lia. }
    assert (L2 : (2 <= length bits)%nat) by (destruct bits as [|? [|? ?]]; cbn in *; try contradiction; lia).
    destruct (e_into_extended_ok Hp d Hm1 Hd T2 (oncT2 _ K)) as [Xt Et]. change (mkE 0 (- (1))) with (@T2 p).
    destruct (start_loop_ok N _ _ Xc Xt) as [Xs Es]. destruct (x_negate_ok Hp d Hm1 Hd _ Xs) as [Xn En].
    rewrite Es, Et, Ec in En.
    assert (EN : aff (x_negate (start_loop N d (e_into_extended c) (e_into_extended T2))) = T2 +e emul d (- ones N) c).
    { rewrite En. rewrite (em_opp _ K) by apply Hc. rewrite (T2_ad _ K), (T2_ad _ K) by (try apply (onc_ng _ K); apply (onc_em _ K), Hc).
      apply e_ext; cbn [eneg ex ey]; ring. }
    destruct (x_into_montgomery_ok _ Xn) as [M [EM RM]].
    { rewrite EN. apply (T2sub_neq _ K); [now apply (sub_em _ K)|apply (sub_zero _ K)]. }
    rewrite EM. cbn [plift pbind unwrap]. rewrite EN in RM.
    eapply wp_use; [apply (wp_windows md s S0 c HS Hc NZ N bits' (e_into_extended c) (cp_from_const (mx M) (my M)) S0 (- ones N) 1 (bs ++ repeat false (padding (length bits)))); auto|].
    { apply incl_refl. }
    { unfold bits'. now rewrite app_length, repeat_length. }
    { unfold bits'. apply Forall_app. split; auto. apply Forall_forall. intros z Hz%repeat_spec. subst z. apply good_const; auto. }
    { rewrite Ec. now rewrite (em_1 _ K) by apply Hc. }
    { intros D. apply Z.divide_1_r_nonneg in D; lia. }
    { split; apply good_const; auto. }
    { right. split; [eauto|]. split; [lia|]. unfold bits'. destruct bits as [|s0 [|s1 [|s2 bits]]]; cbn [bfirst] in Hf; try contradiction.
      - change (padding (length [s0; s1])) with 1%nat. cbn [app repeat wfirst]. split; auto.
      - cbn [app wfirst]. split; auto. now apply (indep3_2 Hp _ _ s2). }
    { intros Hm. split.
      - unfold bits', ebits. apply Forall2_app; [now apply Eb|]. clear -HS. induction (padding (length bits)); cbn [repeat]; constructor; auto; apply ceval_const, HS.
      - unfold cpm, cp_from_const; cbn [px py]. rewrite !ceval_const by apply HS. destruct M; exact RM. }
    intros S1 acc I1 [Ga [Na [Ea [Ca Ua]]]]. lift I1.
    assert (RQ : md <> Setup -> mrel A B (T2 +e emul d (bval bs) c) (cpm s acc)).
    { intros Hm. specialize (Ea Hm). rewrite bval_pad in Ea. replace (- ones N + 1 * (bval bs + ones N))%Z with (bval bs) in Ea by ring. auto. }
    eapply wp_use; [apply (wp_cm_into_edwards Hp d A B Hm1 Hd HM md s S1 acc); auto|].
    { exact (newP_ncP s S0 acc HS Na). }
    { intros Hm. apply (RQ Hm). }
    intros S2 r I2 [G2 [E2 [N2 [M2 [B2 B2']]]]]. lift I2. apply wp_ret.
    split; [split; apply good_neg; apply G2|]. split; [|split; [congruence|]].
    + intros Hm. pose proof (E2 Hm) as X. assert (OQ : onc (T2 +e emul d (bval bs) c)) by apply (onc_T2ad _ K), (onc_em _ K), Hc.
      rewrite (unmont_mrel Hp d A B Hm1 Hd HM _ _ OQ (RQ Hm)) in X.
      rewrite <- (T2T2 _ K (emul d (bval bs) c)) by apply (onc_em _ K), Hc. rewrite (T2_ad _ K) by auto. rewrite <- X.
      apply e_ext; cbn [cpe ex ey px py]; apply ceval_neg.
    + intros _. split; [|split; [|split]].
      * apply (newP_incl S0 S1); [inclt|]. split; apply (newdep_neg Hp); apply N2.
      * apply (newdep_incl S0 S1); [inclt|]. cbn [px py]. destruct M2 as [j [Hj Cj]]. exists j. split; auto. rewrite ccoef_add_cap, !ccoef_neg in *. intros X. apply Cj.
        transitivity (- (- ccoef (px r) j + - ccoef (py r) j)); [ring|]. rewrite X. ring.
      * intros W1 W2. destruct (Ca W1) as [Q1 Q2].
        { intros i Hi. rewrite Z.mul_1_l. auto. }
        cbv zeta. split; lia.
      * lia.
Qed.
End Const.
