(** Circuit from_scalar (circuit/ecc.rs:196-246). *)

From Verif Require Export CEccConst.
From Coq Require Import Lia.
Open Scope num_scope.

Section From.
Context {p l : positive} (J : JubJub p l) (K : jubjub_ok J) (P4 : (4 <= num_bits p)%nat).
Notation F := (Num p).
Let Hp := j_p _ K.
Let Hm1 := j_m1 _ K.
Let Hd := j_d _ K.
Let HM := j_mont _ K.
Notation d := (jd J).
Notation A := (ja J).
Notation B := (jb J).
Notation u := (ju J).
Let Hu : ~ is_square u := j_u _ K.
Add Field cf_field : (num_field Hp) (morphism (@num_morph p), constants [num_cst], power_tac (@num_power p) [num_pow_cst]).
Notation onc := (on_curve d).
Notation onm := (on_mont A B).
Notation mg := (mg A B).
Set Default Proof Using "Type*".
Implicit Types (s : Index -> F).
Opaque emul.

Variable sqrt : F -> option F.
Hypothesis Hs : sqrt_ok sqrt.

Lemma u_neq0 : u <> 0.
Proof. intros E. apply Hu. rewrite E. exists 0. ring. Qed.
Lemma mg_neq0 x : x <> 0 -> mg x <> 0.
Proof.
  intros Hx E. apply Hx. apply (mont_v0 Hp d A B Hm1 Hd HM (mkM x 0)); cbn [my]; auto.
  apply (mg_onm Hp d A B Hm1 Hd HM). rewrite E. ring.
Qed.

Definition strict_vars : nat := (num_bits p - 1 + (Nat.div2 (num_bits p) + nsteps (num_bits p)))%nat.
Definition strict_cons : nat := (num_bits p + (Nat.div2 (num_bits p) + nsteps (num_bits p) + 1) + 1)%nat.

Lemma testbit0_even (y : F) : nth_error (bits_of (num_bits p) (nval y)) 0 = Some (negb (Z.even (nval y))).
Proof.
  unfold bits_of. destruct (num_bits p) as [|n] eqn:E; [lia|]. cbn [seq map nth_error]. f_equal.
  change (Z.of_nat 0) with 0%Z. rewrite Z.bit0_odd, <- Z.negb_even. reflexivity.
Qed.

Lemma wp_check_y md s S0 (x : CNum p) :
  okS s S0 -> good md s S0 x -> nonconst x -> (md <> Setup -> ceval s x <> 0) ->
  wp md s S0 (check_and_get_y sqrt A B u x) (fun S1 r =>
    good md s S1 (fst r) /\ good md s S1 (snd r) /\ newdep S0 (fst r) /\ newdep S0 (snd r) /\
    (md <> Setup -> Z.even (nval (ceval s (snd r))) = true /\
       exists b : bool, ceval s (fst r) = nbool b /\
         (b = true -> ceval s (snd r) * ceval s (snd r) = mg (ceval s x)) /\
         (b = false -> ceval s (snd r) * ceval s (snd r) = u * mg (ceval s x) /\ ~ is_square (mg (ceval s x)))) /\
    bump S0 S1 (strict_vars + 10) (strict_cons + 11)).
Proof.
  intros HS Gx Nx Hx0. unfold check_and_get_y, csquare. pose proof (B_neq0 Hp d A B Hm1 Hd HM) as HB. pose proof u_neq0 as Hu0.
  eapply wp_use; [apply (wp_cmul_nc Hp md s S0); auto|]. intros S1 x2 I1 [[Gx2 Ex2] [V1 B1]]. lift I1.
  eapply wp_use; [apply (wp_cmul_nc Hp md s S1); auto; try apply good_add_num; auto|].
  { exact (isvar_nonconst s S0 S1 x2 HS V1). }
  { apply (nc_add_num S0); auto. apply Gx. }
  intros S2 t I2 [[Gt Et] [V2 B2]]. lift I2.
  rewrite (cdiv_num_ok _ _ HB). fold (cdivn (cadd t x) B). cbn [plift pbind]. set (g := cdivn (cadd t x) B).
  assert (Gg : good md s S2 g) by (unfold g; apply good_divn; auto; apply good_add; auto).
  assert (Eg : md <> Setup -> ceval s g = mg (ceval s x)).
  { intros Hm. unfold g, MontSpec.mg. rewrite ceval_divn, ceval_add, (Et Hm), ceval_add_num, (Ex2 Hm) by (auto; apply HS). reflexivity. }
  assert (Ng : newdep S1 g).
  { unfold g. apply (newdep_divn Hp); auto. apply (newdep_add_l Hp); [exact (isvar_newdep Hp _ _ _ V2)|assumption || (eapply wf_incl; [apply Gx|auto])]. }
  set (ov := omapM _ (cvalue g)).
  assert (OV : (md = Setup -> ov = Ok None) /\ (md = Honest -> exists y, ov = Ok (Some y) /\ Z.even (nval y) = true /\
     (y * y = mg (ceval s x) \/ (~ is_square (mg (ceval s x)) /\ y * y = u * mg (ceval s x))))).
  { split; intros ->.
    - unfold ov. rewrite (vok_setup_none s g); [reflexivity|apply Gg|]. apply (newdep_nonconst s S1); auto.
    - assert (Vg : cvalue g = Some (mg (ceval s x))) by (rewrite <- Eg by discriminate; exact (proj2 Gg)).
      unfold ov. rewrite Vg. cbn [omapM]. pose proof (Hs (mg (ceval s x))) as Q1. destruct (sqrt (mg (ceval s x))) as [r|].
      + exists (filter_even r). split; [reflexivity|]. split; [apply (filter_even_even Hp d A B Hm1 Hd HM)|].
        left. rewrite (filter_even_sq Hp d A B Hm1 Hd HM). exact Q1.
      + pose proof (Hs (mg (ceval s x) * u)) as Q2. destruct (sqrt (mg (ceval s x) * u)) as [r|].
        * exists (filter_even r). split; [reflexivity|]. split; [apply (filter_even_even Hp d A B Hm1 Hd HM)|].
          right. split; auto. rewrite (filter_even_sq Hp d A B Hm1 Hd HM), Q2. ring.
        * exfalso. apply Q2. apply (nonsquare_mul Hp); auto. }
  destruct OV as [OVs OVh].
  apply wp_lift_bind.
  { intros E. destruct md; auto; exfalso; [destruct (OVh eq_refl) as [y [X _]]; congruence|specialize (OVs eq_refl); congruence]. }
  intros v Ev. apply wp_bind. apply (wp_calloc Hp).
  { intros ->. destruct (OVh eq_refl) as [y [X _]]. congruence. }
  intros iy Hiy S3 y Gy0 Hhy Eyi Vy B3.
  assert (I3 : incl (su S2) (su S3)) by (intros z Hz; right; auto). lift I3.
  assert (Gy : good md s S3 y).
  { apply Gy0. destruct md; [left; congruence|left; congruence|right; specialize (OVs eq_refl); congruence]. }
  assert (HY : md = Honest -> Z.even (nval (ceval s y)) = true /\
     (ceval s y * ceval s y = mg (ceval s x) \/ (~ is_square (mg (ceval s x)) /\ ceval s y * ceval s y = u * mg (ceval s x)))).
  { intros Hm. destruct (OVh Hm) as [y0 [X Y]]. assert (ceval s y = y0) as ->; auto. rewrite Eyi. specialize (Hhy Hm). congruence. }
  pose proof (isvar_nonconst s S2 S3 y ltac:(assumption) Vy) as Ny.
  eapply wp_use; [apply (wp_into_bits_strict Hp md s S3 y); auto|]. intros S4 bits I4 [Gb [Lb [Eb [Cb _]]]]. lift I4.
  destruct (Cb Ny) as [Nb [_ B4]]. clear Cb.
  destruct bits as [|b0 bits]; [cbn in Lb; lia|]. cbn [nth_error unwrap plift pbind].
  rewrite Forall_cons_iff in Gb, Nb. destruct Gb as [Gb0 _], Nb as [Nb0 _].
  assert (E0 : md <> Setup -> ceval s b0 = nbool (negb (Z.even (nval (ceval s y))))).
  { intros Hm. specialize (Eb Hm). pose proof (testbit0_even (ceval s y)) as X.
    revert X Eb. generalize (bits_of (num_bits p) (nval (ceval s y))). intros w X Eb.
    inversion Eb as [|? bb ? bs' E Eb']; subst. cbn [nth_error] in X. injection X as ->. exact E. }
  unfold cb_assert_false, cb_assert_const.
  eapply wp_use; [apply (wp_assert_const Hp md s S4 b0 (nbool false)); auto|].
  { intros Hm. rewrite E0 by congruence. rewrite (proj1 (HY Hm)). reflexivity. }
  intros S5 [] I5 [E5 [B5 _]]. lift I5. specialize (B5 Nb0).
  eapply wp_use; [apply (wp_cmul_nc Hp md s S5 y y); auto|]. intros S6 y2 I6 [[Gy2 Ey2] [V6 B6]]. lift I6.
  assert (D6 : newdep S5 y2) by exact (isvar_newdep Hp _ _ _ V6).
  assert (Gg5 : good md s S5 g) by assumption.
  eapply wp_use; [apply (wp_is_zero_nc Hp md s S6 (csub g y2)); auto|].
  { apply good_sub; auto. }
  { apply (newdep_nonconst s S5); auto. apply (newdep_sub_r Hp); auto. apply Gg5. }
  intros S7 q I7 [[Gq Eq] [Nq [B7 [v7 [V7 Eqv]]]]]. lift I7.
  assert (Gu : good md s S5 (cmul_num g u)) by (apply good_mul_num; auto).
  assert (Gu7 : good md s S7 (cmul_num g u)) by (apply good_mul_num; auto).
  eapply wp_use; [apply (wp_is_zero_nc Hp md s S7 (csub (cmul_num g u) y2)); auto|].
  { apply good_sub; auto. }
  { apply (newdep_nonconst s S5); auto. apply (newdep_sub_r Hp); auto. apply Gu. }
  intros S8 nq I8 [[Gnq Enq] [Nnq [B8 [v8 [V8 Enqv]]]]]. lift I8.
  assert (Dq : newdep S6 q) by (rewrite Eqv; apply (newdep_sub_r Hp); [exact (isvar_newdep Hp _ _ _ V7)|apply wf_const; match goal with H : okS s ?S |- In _ (su ?S) => apply H end]).
  assert (Dnq : newdep S7 nq) by (rewrite Enqv; apply (newdep_sub_r Hp); [exact (isvar_newdep Hp _ _ _ V8)|apply wf_const; match goal with H : okS s ?S |- In _ (su ?S) => apply H end]).
  assert (NS : nonconst (csub_num (cadd_rv q nq) 1)).
  { apply (newdep_nonconst s S7); auto. apply (newdep_sub_num s); auto. apply (newdep_rv_r Hp); auto. apply Gq. }
  assert (GS : good md s S8 (csub_num (cadd_rv q nq) 1)) by (apply good_sub_num; auto; apply good_add_rv; auto).
  assert (ES : md <> Setup -> ceval s (csub_num (cadd_rv q nq) 1) =
     nbool (nis_zero (mg (ceval s x) - ceval s y * ceval s y)) + nbool (nis_zero (mg (ceval s x) * u - ceval s y * ceval s y)) - 1).
  { intros Hm. rewrite ceval_sub_num, ceval_add_rv, (Eq Hm), (Enq Hm), !ceval_sub, ceval_mul_num, (Eg Hm), (Ey2 Hm) by apply HS. reflexivity. }
  eapply wp_use; [apply (wp_assert_zero Hp md s S8); auto|].
  { intros Hm. assert (Hm' : md <> Setup) by congruence. rewrite (ES Hm'). destruct (HY Hm) as [_ HY2]. pose proof (mg_neq0 _ (Hx0 Hm')) as G0.
    assert (GU : mg (ceval s x) <> mg (ceval s x) * u).
    { intros E. apply Hu. exists 1. apply (nmul_cancel_l Hp (mg (ceval s x))); auto. rewrite <- E. ring. }
    destruct HY2 as [E|[E1 E]]; rewrite E.
    - replace (mg (ceval s x) - mg (ceval s x)) with (0 : F) by ring. rewrite (proj2 (nis_zero_eq 0) eq_refl).
      rewrite (proj2 (nis_zero_neq _)); [cbn; ring|]. intros X. apply GU. symmetry. now apply (sub_eq0 Hp).
    - replace (mg (ceval s x) * u - u * mg (ceval s x)) with (0 : F) by ring. rewrite (proj2 (nis_zero_eq 0) eq_refl).
      rewrite (proj2 (nis_zero_neq _)); [cbn; ring|]. intros X. apply GU. transitivity (u * mg (ceval s x)); [now apply (sub_eq0 Hp)|ring]. }
  intros S9 [] I9 [E9 [B9 _]]. lift I9. specialize (B9 NS). apply wp_ret. cbn [fst snd].
  split; auto. split; auto. split; [|split; [|split]].
  - apply (newdep_incl S0 S6); [inclt|auto].
  - apply (newdep_incl S0 S2); [inclt|]. exact (isvar_newdep Hp _ _ _ Vy).
  - intros Hm. split.
    + specialize (E5 Hm). rewrite (E0 Hm) in E5. destruct (Z.even (nval (ceval s y))); auto. cbn in E5. exfalso. exact (n1_neq_n0 Hp E5).
    + exists (nis_zero (mg (ceval s x) - ceval s y * ceval s y)). split; [now rewrite (Eq Hm), ceval_sub, (Eg Hm), (Ey2 Hm)|].
      specialize (E9 Hm). rewrite (ES Hm) in E9. split; intros Hb; rewrite Hb in E9.
      * apply nis_zero_eq in Hb. symmetry. now apply (sub_eq0 Hp).
      * destruct (nis_zero (mg (ceval s x) * u - ceval s y * ceval s y)) eqn:Hc.
        -- apply nis_zero_eq in Hc. apply (sub_eq0 Hp) in Hc. assert (X : ceval s y * ceval s y = u * mg (ceval s x)) by (rewrite <- Hc; ring). split; auto.
           intros Sq. assert (SU : is_square (u * mg (ceval s x))) by (rewrite <- X; apply is_square_sq).
           apply Hu. apply (is_square_cancel Hp (mg (ceval s x))); auto; [exact (mg_neq0 _ (Hx0 Hm))|].
           replace (mg (ceval s x) * u) with (u * mg (ceval s x)) by ring. auto.
        -- exfalso. cbn [nbool] in E9. apply (n1_neq_n0 Hp). transitivity (- (0 + 0 - 1) : F); [ring|]. rewrite E9. ring.
  - unfold strict_vars, strict_cons in *. destruct B1, B2, B3, B4, B5, B6, B7, B8, B9. split; lia.
Qed.

Notation fsp := (fs_point A B u).
Definition fs_vars : nat := (2 * strict_vars + 44)%nat.
Definition fs_cons : nat := (2 * strict_cons + 46)%nat.

Lemma fs_x2_neq0 t : t + 1 <> 0 -> fs_x2 A u t <> 0.
Proof.
  intros Ht E. pose proof (A_neq0 Hp d A B Hm1 Hd HM) as HA. pose proof (tau_neq0 Hp d A B Hm1 Hd HM u Hu t Ht) as NT.
  apply (tau_nonsquare Hp d A B Hm1 Hd HM u Hu t Ht). assert (X : tau u t = - (1)).
  { unfold fs_x2 in E. set (w := tau u t) in *.
    transitivity (w * (A * (- (1) * (- (1) / A * (1 + finv w)))) - 1); [field; auto|]. rewrite E. ring. }
  rewrite X. exact Hm1.
Qed.
Lemma fs_x3_neq0 t : t + 1 <> 0 -> fs_x3 A u t <> 0.
Proof.
  intros Ht. unfold fs_x3. apply (nmul_nonzero Hp); [now apply fs_x2_neq0|exact (tau_neq0 Hp d A B Hm1 Hd HM u Hu t Ht)].
Qed.

Lemma wp_ce_from_scalar md s S0 (t : CNum p) :
  okS s S0 -> good md s S0 t -> nonconst t -> (md = Honest -> ceval s t + 1 <> 0) ->
  wp md s S0 (ce_from_scalar sqrt J t) (fun S1 R =>
    goodP md s S1 R /\
    (md <> Setup -> ceval s t + 1 <> 0 /\ exists M, fsp (ceval s t) M /\ cpe s R = emul d 8 (unmont M)) /\
    newP S0 R /\ newdep S0 (cadd_cap (px R) (py R)) /\ bump S0 S1 fs_vars fs_cons).
Proof.
  intros HS Gt Nt Ht. unfold ce_from_scalar, csquare. cbv zeta. pose proof (A_neq0 Hp d A B Hm1 Hd HM) as HA. pose proof u_neq0 as Hu0.
  set (t1 := cadd_num t 1). assert (Gt1 : good md s S0 t1) by (apply good_add_num; auto).
  assert (Nt1 : nonconst t1) by (apply (nc_add_num S0); auto; apply Gt).
  assert (Et1 : ceval s t1 = ceval s t + 1) by (apply ceval_add_num, HS).
  eapply wp_use; [apply (wp_cmul_nc Hp md s S0 t1 t1); auto|]. intros S1 tt I1 [[Gtt Ett] [V1 B1]]. lift I1.
  rewrite (ndiv_ok _ _ HA). cbn [plift pbind].
  set (t2 := cmul_num tt u). set (x3 := cmul_num (cadd_num t2 1) (- (1) / A)).
  assert (Gt2 : good md s S1 t2) by (apply good_mul_num; auto).
  assert (Gx3 : good md s S1 x3) by (apply good_mul_num; auto; apply good_add_num; auto).
  assert (Dt2 : newdep S0 t2) by (apply (newdep_mul_num Hp); auto; exact (isvar_newdep Hp _ _ _ V1)).
  assert (HmA : - (1) / A <> 0).
  { intros E. apply (n1_neq_n0 Hp). transitivity (- ((- (1) / A) * A)); [field; auto|]. rewrite E. ring. }
  assert (Dx3 : newdep S0 x3) by (apply (newdep_mul_num Hp); auto; apply (newdep_add_num s); auto).
  assert (Et2 : md <> Setup -> ceval s t2 = tau u (ceval s t)).
  { intros Hm. unfold t2, tau. rewrite ceval_mul_num, (Ett Hm), Et1. reflexivity. }
  assert (Ex3 : md <> Setup -> ceval s x3 = (tau u (ceval s t) + 1) * (- (1) / A)).
  { intros Hm. unfold x3. rewrite ceval_mul_num, ceval_add_num, (Et2 Hm) by apply HS. reflexivity. }
  eapply wp_use; [apply (wp_cdiv_nc Hp md s S1 x3 t2); auto|].
  { apply (newdep_nonconst s S0); auto. }
  { apply (newdep_nonconst s S0); auto. }
  { intros Hm. rewrite Et2 by congruence. apply (tau_neq0 Hp d A B Hm1 Hd HM u Hu). auto. }
  intros S2 x2 I2 [Gx2 [Ex2 [V2 B2]]]. lift I2.
  assert (T1 : md <> Setup -> ceval s t + 1 <> 0).
  { intros Hm E. specialize (Ex2 Hm). rewrite (Et2 Hm), (Ex3 Hm) in Ex2. unfold tau in Ex2. rewrite E in Ex2. apply HmA.
    transitivity ((0 * 0 * u + 1) * (- (1) / A)); [ring|]. rewrite <- Ex2. ring. }
  assert (W2 : md <> Setup -> ceval s x2 = fs_x2 A u (ceval s t)).
  { intros Hm. pose proof (tau_neq0 Hp d A B Hm1 Hd HM u Hu _ (T1 Hm)) as NT. specialize (Ex2 Hm). rewrite (Et2 Hm), (Ex3 Hm) in Ex2.
    rewrite (div_val Hp _ _ _ NT Ex2). unfold fs_x2. set (w := tau u (ceval s t)) in *. field; auto. }
  assert (W3 : md <> Setup -> ceval s x3 = fs_x3 A u (ceval s t)).
  { intros Hm. pose proof (tau_neq0 Hp d A B Hm1 Hd HM u Hu _ (T1 Hm)) as NT. rewrite (Ex3 Hm). unfold fs_x3, fs_x2. set (w := tau u (ceval s t)) in *. field; auto. }
  assert (Nx2 : nonconst x2) by exact (isvar_nonconst s S1 S2 x2 ltac:(assumption) V2).
  assert (Nx3 : nonconst x3) by exact (newdep_nonconst s S0 x3 HS Dx3).
  eapply wp_use; [apply (wp_check_y md s S2 x2); auto|].
  { intros Hm. rewrite (W2 Hm). apply fs_x2_neq0; auto. }
  intros S3 [iv y2] I3 [Giv [Gy2 [Div [Dy2 [E3 B3]]]]]. cbn [fst snd] in *. lift I3. cbv beta iota.
  eapply wp_use; [apply (wp_check_y md s S3 x3); auto|].
  { intros Hm. rewrite (W3 Hm). apply fs_x3_neq0; auto. }
  intros S4 [iv' y3] I4 [_ [Gy3 [_ [Dy3 [E4 B4]]]]]. cbn [fst snd] in *. lift I4. cbv beta iota.
  assert (Niv : nonconst iv) by exact (newdep_nonconst s S2 iv ltac:(assumption) Div).
  assert (Biv : md = Honest -> isbit (ceval s iv)).
  { intros Hm. destruct (E3 ltac:(congruence)) as [_ [b [-> _]]]. apply isbit_nbool. }
  eapply wp_use; [apply (wp_switch_nc Hp md s S4 x2 iv x3); auto|].
  { apply (newdep_nonconst s S1); auto. apply (newdep_sub_l Hp); [exact (isvar_newdep Hp _ _ _ V2)|apply Gx3]. }
  intros S5 x I5 [Gx [X1 [X0 [Dx B5]]]]. lift I5.
  eapply wp_use; [apply (wp_switch_nc Hp md s S5 y2 iv y3); auto|].
  { apply (newdep_nonconst s S3); auto. apply (newdep_sub_r Hp); [exact Dy3|apply Gy2]. }
  intros S6 y I6 [Gy [Y1 [Y0 [Dy B6]]]]. lift I6.
  assert (FP : md <> Setup -> fsp (ceval s t) (mkM (ceval s x) (ceval s y))).
  { intros Hm. destruct (E3 Hm) as [Ev2 [b [Eb [Bt Bf]]]]. destruct (E4 Hm) as [Ev3 [b' [Eb' [Bt' Bf']]]].
    rewrite (W2 Hm) in Bt, Bf. rewrite (W3 Hm) in Bt', Bf'. destruct b; cbn [nbool] in Eb.
    - rewrite (X1 Hm Eb), (Y1 Hm Eb). split; [exact Ev2|]. left. cbn [mx my]. split; [auto|now apply Bt].
    - rewrite (X0 Hm Eb), (Y0 Hm Eb). split; [exact Ev3|]. right. cbn [mx my]. destruct (Bf eq_refl) as [_ Nsq]. split; auto. split; auto.
      destruct b'; [now apply Bt'|]. destruct (Bf' eq_refl) as [_ Nsq3]. exfalso. apply Nsq3.
      apply (mg_x3_square Hp d A B Hm1 Hd HM u Hu); auto. }
  eapply wp_use; [apply (wp_cm_into_edwards Hp d A B Hm1 Hd HM md s S6 (mkP x y)); auto|].
  { split; auto. }
  { split; [exact (newdep_nonconst s S4 x ltac:(assumption) Dx)|exact (newdep_nonconst s S5 y ltac:(assumption) Dy)]. }
  { intros Hm. apply (fs_point_onm Hp d A B Hm1 Hd HM u Hu (ceval s t)). exact (FP Hm). }
  intros S7 P I7 [GP [EP [NP [MP B7]]]]. lift I7.
  assert (UO : md <> Setup -> onc (unmont (mkM (ceval s x) (ceval s y)))).
  { intros Hm. apply (unmont_ok Hp d A B Hm1 Hd HM). apply (fs_point_onm Hp d A B Hm1 Hd HM u Hu (ceval s t)). exact (FP Hm). }
  eapply wp_mono; [apply (wp_ce_cofactor Hp d A B Hm1 Hd HM md s S7 P); auto|].
  { exact (newP_ncP s S6 P ltac:(assumption) NP). }
  { intros Hm. rewrite (EP Hm). exact (UO Hm). }
  intros S8 R I8 [GR [ER [NR [MR B8]]]]. split; auto. split; [|split; [|split]].
  - intros Hm. split; [auto|]. exists (mkM (ceval s x) (ceval s y)). split; [auto|]. rewrite (ER Hm), (EP Hm). reflexivity.
  - apply (newP_incl S0 S7); [inclt|auto].
  - apply (newdep_incl S0 S7); [inclt|auto].
  - specialize (B8 (newdep_nonconst s S6 _ ltac:(assumption) MP)). unfold fs_vars, fs_cons.
    destruct B1, B2, B3, B4, B5, B6, B7, B8. split; lia.
Qed.
End From.
