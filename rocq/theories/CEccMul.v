(** Circuit scalar multiplication, membership and decompression (circuit/ecc.rs:62-194). *)

From Verif Require Export CEccSpec JubJub.
From Coq Require Import Lia.
Open Scope num_scope.

Ltac lift I := match type of I with incl (su ?S0) (su ?S1) =>
  repeat match goal with
  | H : good ?md ?s S0 ?c |- _ => lazymatch goal with _ : good md s S1 c |- _ => fail | _ => let L := fresh "Lft" in pose proof (good_incl md s S0 S1 c H I) as L end
  | H : goodP ?md ?s S0 ?c |- _ => lazymatch goal with _ : goodP md s S1 c |- _ => fail | _ => let L := fresh "Lft" in pose proof (goodP_incl md s S0 S1 c I H) as L end
  | H : okS ?s S0 |- _ => lazymatch goal with _ : okS s S1 |- _ => fail | _ => let L := fresh "Lft" in pose proof (okS_incl s S0 S1 H I) as L end
  end end.
Ltac inclt := repeat first [apply incl_refl | eapply incl_tran; [eassumption|]].

Section Sub.
Context {p l : positive} (J : JubJub p l) (K : jubjub_ok J).
Notation F := (Num p).
Let Hp := j_p _ K.
Let Hm1 := j_m1 _ K.
Let Hd := j_d _ K.
Let HM := j_mont _ K.
Notation d := (jd J).
Notation A := (ja J).
Notation B := (jb J).
Add Field cm_field : (num_field Hp) (morphism (@num_morph p), constants [num_cst], power_tac (@num_power p) [num_pow_cst]).
Let EG := edwards_group Hp d Hm1 Hd.
Notation onc := (on_curve d).
Notation onm := (on_mont A B).
Notation "P +e Q" := (eadd d P Q) (at level 50, left associativity).
Set Default Proof Using "Type*".

(** The subgroup of order l. *)
Definition sub (P : EPoint p) : Prop := onc P /\ emul d (Zpos l) P = e_zero.

Lemma em_add a b P : onc P -> emul d (a + b) P = emul d a P +e emul d b P.
Proof. exact (fun H => zmul_add EG a b P H). Qed.
Lemma em_opp a P : onc P -> emul d (- a) P = eneg (emul d a P).
Proof. exact (fun H => zmul_opp EG a P H). Qed.
Lemma em_distr a P Q : onc P -> onc Q -> emul d a (P +e Q) = emul d a P +e emul d a Q.
Proof. exact (fun H H' => zmul_distr EG a P Q H H'). Qed.
Lemma em_zero a : emul d a e_zero = e_zero.
Proof. exact (zmul_zero EG a). Qed.
Lemma em_0 P : emul d 0 P = e_zero.
Proof. reflexivity. Qed.
Lemma em_1 P : onc P -> emul d 1 P = P.
Proof. exact (fun H => zmul_1 EG P H). Qed.
Lemma em_mul a b P : onc P -> emul d (a * b) P = emul d a (emul d b P).
Proof. exact (fun H => zmul_mul EG a b P H). Qed.
Lemma em_congr j k P : sub P -> (j mod Zpos l = k mod Zpos l)%Z -> emul d j P = emul d k P.
Proof. intros [H1 H2]. exact (zmul_congr EG (Zpos l) j k P H1 H2). Qed.
Lemma onc_em a P : onc P -> onc (emul d a P).
Proof. apply (onc_emul Hp d Hm1 Hd). Qed.
Lemma onc_ad P Q : onc P -> onc Q -> onc (P +e Q).
Proof. apply (onc_add Hp d Hm1 Hd). Qed.
Lemma onc_ng P : onc P -> onc (eneg P).
Proof. apply (onc_neg Hp d Hm1 Hd). Qed.
Lemma onc_z : onc e_zero.
Proof. apply (onc_zero Hp d Hm1 Hd). Qed.
Lemma ad_0l P : onc P -> e_zero +e P = P.
Proof. exact (fun H => gadd0 _ _ _ _ EG P H). Qed.
Lemma ad_0r P : onc P -> P +e e_zero = P.
Proof. intros H. apply (gadd0r EG P H). Qed.
Lemma ad_assoc P Q R : onc P -> onc Q -> onc R -> P +e (Q +e R) = P +e Q +e R.
Proof. exact (fun H1 H2 H3 => eq_sym (gaddA _ _ _ _ EG P Q R H1 H2 H3)). Qed.
Lemma ad_nr P : onc P -> P +e eneg P = e_zero.
Proof. exact (fun H => gaddNr EG P H). Qed.
Opaque emul.

Lemma sub_em a P : sub P -> sub (emul d a P).
Proof.
  intros [H1 H2]. split; [now apply onc_em|]. rewrite <- em_mul, Z.mul_comm, em_mul, H2 by auto. apply em_zero.
Qed.
Lemma sub_zero : sub e_zero.
Proof. split; [apply onc_z|apply em_zero]. Qed.
Lemma sub_g : sub (jg J).
Proof. split; [apply (j_g _ K)|apply (j_gl _ K)]. Qed.
Lemma sub_8 P : onc P -> sub (emul d 8 P).
Proof. intros H. split; [now apply onc_em|]. rewrite <- em_mul, Z.mul_comm by auto. now apply (j_exp _ K). Qed.
Lemma lT2 : emul d (Zpos l) T2 = T2.
Proof. apply (T2_odd Hp d Hm1 Hd), (j_odd _ K). Qed.
Lemma oncT2 : onc T2.
Proof. apply (onc_T2 Hp d Hm1 Hd). Qed.
Lemma T2n : T2 <> e_zero :> EPoint p.
Proof. apply (T2_neq Hp d Hm1 Hd). Qed.
Lemma T2_not_sub : ~ sub T2.
Proof. intros [_ H]. rewrite lT2 in H. now apply T2n in H. Qed.
Lemma l_T2sub Q : sub Q -> emul d (Zpos l) (T2 +e Q) = T2.
Proof. intros [H1 H2]. rewrite em_distr, H2, lT2 by (auto; apply oncT2). apply ad_0r, oncT2. Qed.
Lemma T2sub_neq Q R : sub Q -> sub R -> T2 +e Q <> R.
Proof. intros HQ [_ HR] E. apply T2n. rewrite <- (l_T2sub Q HQ), E. exact HR. Qed.
Lemma sub_neg R : sub R -> sub (eneg R).
Proof.
  intros H. replace (eneg R) with (emul d (-1) R); [now apply sub_em|].
  change (-1)%Z with (- (1))%Z. rewrite em_opp, em_1; auto; apply H.
Qed.
Lemma sub_x P : sub P -> P <> e_zero -> ex P <> 0.
Proof.
  intros HP NP E. destruct (onc_x0 Hp d Hm1 Hd P (proj1 HP) E) as [->| ->]; auto. now apply T2_not_sub.
Qed.
Lemma onc_T2ad Q : onc Q -> onc (T2 +e Q).
Proof. intros. apply onc_ad; auto. apply oncT2. Qed.
Lemma T2T2 Q : onc Q -> T2 +e (T2 +e Q) = Q.
Proof. intros H. rewrite ad_assoc, (T2_double Hp d Hm1 Hd) by (auto; apply oncT2). now apply ad_0l. Qed.
Lemma T2_ad P : onc P -> T2 +e P = mkE (- ex P) (- ey P).
Proof.
  intros H. transitivity (T2 +e eneg (eneg P)).
  - f_equal. apply e_ext; cbn [eneg ex ey]; ring.
  - rewrite (T2_sub Hp d Hm1 Hd). reflexivity.
Qed.

Lemma mrel_T2 : mrel A B T2 (mkM 0 0).
Proof. unfold mrel, on_mont, T2; cbn [mx my ex ey]. repeat split; ring. Qed.
Lemma mrel_mx R N : sub R -> mrel A B R N -> mx N <> 0.
Proof.
  intros HR RN E. apply T2_not_sub. replace T2 with R; auto.
  rewrite <- (unmont_mrel Hp d A B Hm1 Hd HM R N (proj1 HR) RN). destruct RN as [C _].
  pose proof (proj2 (mont_v0 Hp d A B Hm1 Hd HM N C) E) as E2. pose proof (n1_neq_n0 Hp).
  unfold unmont. rewrite E, E2, (proj2 (nis_zero_eq 0) eq_refl).
  apply e_ext; cbn [ex ey T2]; [|assert (0 + 1 <> (0 : F)) by (replace (0 + 1 : F) with (1 : F) by ring; auto)]; field; auto.
Qed.
Lemma mrel_my R N : sub R -> mrel A B R N -> my N <> 0.
Proof. intros HR RN E. apply (mrel_mx R N HR RN). destruct RN as [C _]. now apply (mont_v0 Hp d A B Hm1 Hd HM N C). Qed.
Lemma acc_neq Q R M N : sub Q -> sub R -> mrel A B (T2 +e Q) M -> mrel A B R N -> mx M <> mx N.
Proof.
  intros HQ HR RM RN. apply (mrel_u_neq Hp d A B Hm1 Hd HM (T2 +e Q) R M N); auto; try apply HR.
  - apply onc_T2ad, HQ.
  - now apply T2sub_neq.
  - apply T2sub_neq; auto. now apply sub_neg.
Qed.
Lemma acc_chord Q R M N : sub Q -> sub R -> mrel A B (T2 +e Q) M -> mrel A B R N ->
  mrel A B (T2 +e (Q +e R)) (m_chord A B M N).
Proof.
  intros HQ HR RM RN. rewrite ad_assoc by (try apply oncT2; try apply HQ; apply HR).
  apply (chord_ok Hp d A B Hm1 Hd HM); auto; try apply HR; [apply onc_T2ad, HQ|now apply (mrel_mx R)|now apply (acc_neq Q R)].
Qed.
Lemma mrel_of_sub R : sub R -> R <> e_zero -> exists N, mrel A B R N.
Proof. intros HR NR. apply (mrel_of Hp d A B Hm1 Hd HM); auto. apply HR. Qed.

(** Multiples of a non-zero subgroup point. *)
Lemma em_neq0 k P : sub P -> P <> e_zero -> (0 < k < Zpos l)%Z -> emul d k P <> e_zero.
Proof.
  intros [H1 H2] NP Hk E. pose proof (emul_order_prime Hp d Hm1 Hd (Zpos l) k P H1 (j_l _ K) H2 NP E) as D.
  apply Z.divide_pos_le in D; lia.
Qed.
Lemma em_neq0_rel k P : sub P -> P <> e_zero -> ~ (Zpos l | k)%Z -> emul d k P <> e_zero.
Proof. intros [H1 H2] NP Hk E. apply Hk. exact (emul_order_prime Hp d Hm1 Hd (Zpos l) k P H1 (j_l _ K) H2 NP E). Qed.
Lemma l_pow2 n : ~ (Zpos l | 2 ^ Z.of_nat n)%Z.
Proof.
  induction n as [|n IH].
  - change (2 ^ Z.of_nat 0)%Z with 1%Z. intros D. apply Z.divide_1_r_nonneg in D; [|lia]. pose proof (prime_ge_2 _ (j_l _ K)). lia.
  - rewrite Nat2Z.inj_succ, Z.pow_succ_r by lia. intros D. destruct (prime_mult _ (j_l _ K) _ _ D) as [D2|]; auto.
    apply Z.divide_pos_le in D2; [|lia]. destruct (j_odd _ K) as [q Hq]. pose proof (prime_ge_2 _ (j_l _ K)). lia.
Qed.

(** The same y for four multiples of a point is impossible. *)
Lemma cubic_roots (c u1 u2 u3 u4 : F) :
  let f := fun u => u * u * u + A * (u * u) + u in
  f u1 = c -> f u2 = c -> f u3 = c -> f u4 = c ->
  u1 <> u2 -> u1 <> u3 -> u1 <> u4 -> u2 <> u3 -> u2 <> u4 -> u3 <> u4 -> False.
Proof.
  intros f F1 F2 F3 F4 N12 N13 N14 N23 N24 N34.
  assert (Q : forall u v, f u = c -> f v = c -> u <> v -> u * u + u * v + v * v + A * (u + v) + 1 = 0).
  { intros u v Fu Fv N. apply (nmul_cancel_l Hp (u - v)).
    - intros X. apply N. transitivity (u - v + v); [ring|]. rewrite X. ring.
    - transitivity (f u - f v); [unfold f; ring|]. rewrite Fu, Fv. ring. }
  assert (T : forall u v w, f u = c -> f v = c -> f w = c -> u <> v -> u <> w -> v <> w -> u + v + w + A = 0).
  { intros u v w Fu Fv Fw N1 N2 N3. apply (nmul_cancel_l Hp (v - w)).
    - intros X. apply N3. transitivity (v - w + w); [ring|]. rewrite X. ring.
    - transitivity ((u * u + u * v + v * v + A * (u + v) + 1) - (u * u + u * w + w * w + A * (u + w) + 1)); [ring|].
      rewrite (Q u v), (Q u w) by auto. ring. }
  apply N34. transitivity ((u1 + u2 + u3 + A) - (u1 + u2 + A)); [ring|].
  rewrite (T u1 u2 u3) by auto. rewrite <- (T u1 u2 u4) by auto. ring.
Qed.

(** Membership and decompression. *)
Implicit Types (s : Index -> F) (v : option (F * F)).
Lemma inv8_ok : exists i8, inv8 l = Ok i8 /\ forall P, sub P -> emul d 8 (emul d (nval i8) P) = P.
Proof.
  assert (N8 : (num 8 : Num l) <> 0).
  { intros E. apply (l_pow2 3). apply Z.mod_divide; [lia|]. apply (f_equal nval) in E. rewrite nval_num, nval_zero in E. exact E. }
  exists (finv (num 8)). split; [unfold inv8; now apply ninv_ok|]. intros P HP.
  rewrite <- em_mul by apply HP. rewrite <- (em_1 P) at 2 by apply HP. apply em_congr; auto.
  pose proof (finv_l (j_l _ K) _ N8) as E. apply (f_equal nval) in E. unfold nmul in E. rewrite nval_num in E.
  rewrite nval_num, Zmult_mod_idemp_r, Z.mul_comm in E. rewrite E. unfold n1. now rewrite nval_num.
Qed.

Lemma wp_cp_alloc md s S0 v :
  okS s S0 -> (md = Honest -> v <> None) -> (md = Setup -> v = None) ->
  wp md s S0 (cp_alloc v) (fun S1 P => goodP md s S1 P /\ newP S0 P /\ newdep S0 (cadd_cap (px P) (py P)) /\
    (md = Honest -> v = Some (e_pair (cpe s P))) /\ bump S0 S1 2 0).
Proof.
  intros HS Hh Hsu. unfold cp_alloc. apply wp_bind. apply (wp_calloc Hp).
  { intros Hm. destruct v; [discriminate|]. now destruct (Hh Hm). }
  intros i1 Hi1 S1 x Gx Hx Ex Vx B1. assert (I1 : incl (su S0) (su S1)) by (intros j Hj; now right).
  assert (Gx' : good md s S1 x) by (apply Gx; destruct md; [left; congruence..|right; now rewrite Hsu]). lift I1.
  apply wp_bind. apply (wp_calloc Hp).
  { intros Hm. destruct v; [discriminate|]. now destruct (Hh Hm). }
  intros i2 Hi2 S2 y Gy Hy Ey Vy B2. assert (I2 : incl (su S1) (su S2)) by (intros j Hj; now right).
  assert (Gy' : good md s S2 y) by (apply Gy; destruct md; [left; congruence..|right; now rewrite Hsu]). lift I2.
  apply wp_ret. split; [split; auto|]. split; [split|split; [|split]]; cbn [px py].
  - apply (isvar_newdep Hp _ S1); auto.
  - apply (newdep_incl S0 S1); auto. apply (isvar_newdep Hp _ S2); auto.
  - apply (newdep_incl S0 S1); auto. apply (newdep_cap_r Hp); [apply (isvar_newdep Hp _ S2); auto|apply Gx'].
  - intros Hm. specialize (Hx Hm). specialize (Hy Hm). destruct v as [[a b]|]; [|discriminate]. cbn in Hx, Hy. unfold e_pair, cpe; cbn [ex ey px py].
    rewrite Ex, Ey. congruence.
  - exact (bump_trans _ _ _ _ _ _ _ B1 B2).
Qed.

Lemma wp_ce_in_subgroup md s S0 P :
  okS s S0 -> goodP md s S0 P -> (md = Setup -> cp_get_value P = None) ->
  (md = Honest -> sub (cpe s P)) ->
  wp md s S0 (ce_assert_in_subgroup l d P) (fun S1 _ =>
    (md <> Setup -> sub (cpe s P)) /\ bump S0 S1 19 20).
Proof.
  intros HS G Hsu HC. unfold ce_assert_in_subgroup. destruct inv8_ok as [i8 [E8 H8]].
  assert (HV : md = Honest -> cp_get_value P = Some (e_pair (cpe s P))).
  { intros ->. destruct G as [[_ G1] [_ G2]]. cbn in G1, G2. unfold cp_get_value. now rewrite G1, G2. }
  apply wp_lift_bind.
  { intros E. destruct md; auto; exfalso.
    - rewrite HV in E by auto. cbn [omapM] in E. rewrite E8 in E. cbn [rbind e_pair fst snd] in E.
      rewrite (e_mul_ok Hp d Hm1 Hd) in E by (now apply HC). discriminate.
    - rewrite Hsu in E by auto. discriminate. }
  intros v Ev. eapply wp_use; [apply (wp_cp_alloc md s S0 v); auto|].
  { intros Hm. rewrite HV in Ev by auto. cbn [omapM] in Ev. destruct v; [discriminate|].
    exfalso. clear - Ev. destruct (inv8 l); cbn [rbind] in Ev; [|discriminate]. destruct (e_mul _ _ _); discriminate. }
  { intros Hm. rewrite Hsu in Ev by auto. cbn in Ev. congruence. }
  intros S1 Q I1 [GQ [NQ [MQ [VQ B1]]]]. lift I1.
  assert (HQ : md = Honest -> onc (cpe s Q) /\ emul d 8 (cpe s Q) = cpe s P).
  { intros Hm. specialize (VQ Hm). rewrite HV in Ev by auto. cbn [omapM] in Ev. rewrite E8 in Ev. cbn [rbind e_pair fst snd] in Ev.
    specialize (HC Hm). change (mkE (ex (cpe s P)) (ey (cpe s P))) with (cpe s P) in Ev.
    rewrite (e_mul_ok Hp d Hm1 Hd) in Ev by apply HC. cbn [rmap] in Ev.
    assert (EQ : cpe s Q = emul d (nval i8) (cpe s P)).
    { rewrite VQ in Ev. unfold e_pair in Ev. apply e_ext; congruence. }
    rewrite EQ. split; [apply onc_em, HC|apply H8, HC]. }
  eapply wp_use; [apply (wp_ce_in_curve Hp d A B Hm1 Hd HM md s S1 Q); auto; intros Hm; now apply HQ|].
  intros S2 _ I2 [CQ B2]. lift I2.
  eapply wp_use; [apply (wp_ce_cofactor Hp d A B Hm1 Hd HM md s S2 Q); auto; exact (newP_ncP s S0 Q HS NQ)|].
  intros S3 Q8 I3 [G8 [E8' [N8 [_ B3]]]]. lift I3. destruct G8 as [G8x G8y]. destruct N8 as [N8x N8y].
  assert (GP3 : goodP md s S3 P) by assumption. destruct GP3 as [Gx Gy]. assert (HS3 : okS s S3) by assumption.
  assert (GP0 : goodP md s S2 P) by assumption. destruct GP0 as [Gx0 Gy0]. assert (HS2 : okS s S2) by assumption.
  assert (Nx : nonconst (csub (px P) (px Q8))) by (apply (newdep_nonconst s S2); auto; apply (newdep_sub_r Hp); auto; apply Gx0).
  assert (Ny : nonconst (csub (py P) (py Q8))) by (apply (newdep_nonconst s S2); auto; apply (newdep_sub_r Hp); auto; apply Gy0).
  assert (EH : md = Honest -> cpe s P = cpe s Q8).
  { intros Hm. rewrite E8' by congruence. symmetry. now apply HQ. }
  eapply wp_use; [apply (wp_assert_zero Hp md s S3); auto using good_sub|].
  { intros Hm. rewrite ceval_sub. pose proof (f_equal ex (EH Hm)) as X. cbn [cpe ex] in X. rewrite X. ring. }
  intros S4 _ I4 [Z1 [B4 _]]. lift I4.
  eapply wp_mono; [apply (wp_assert_zero Hp md s S4); auto using good_sub|].
  { intros Hm. rewrite ceval_sub. pose proof (f_equal ey (EH Hm)) as X. cbn [cpe ey] in X. rewrite X. ring. }
  intros S5 _ I5 [Z2 [B5 _]]. split.
  - intros Hm. replace (cpe s P) with (cpe s Q8); [rewrite (E8' Hm); apply sub_8; auto|].
    specialize (Z1 Hm). specialize (Z2 Hm). rewrite ceval_sub in Z1, Z2.
    apply e_ext; cbn [cpe ex ey]; symmetry; apply (sub_eq0 Hp); auto.
  - specialize (B2 (newP_ncP s S0 Q HS NQ)). specialize (B3 (newdep_nonconst s S0 _ HS MQ)).
    exact (bump_trans _ _ _ _ _ _ _ (bump_trans _ _ _ _ _ _ _ (bump_trans _ _ _ _ _ _ _ (bump_trans _ _ _ _ _ _ _ B1 B2) B3) (B4 Nx)) (B5 Ny)).
Qed.

Lemma wp_ce_decompress sqrt md s S0 (x : CNum p) :
  sqrt_ok sqrt -> okS s S0 -> good md s S0 x -> (md = Setup -> cvalue x = None) ->
  (md = Honest -> exists P, sub P /\ ex P = ceval s x) ->
  wp md s S0 (ce_subgroup_decompress sqrt J x) (fun S1 R =>
    goodP md s S1 R /\ (md <> Setup -> sub (cpe s R) /\ ex (cpe s R) = ceval s x) /\
    newP S0 R /\ newdep S0 (cadd_cap (px R) (py R)) /\ bump S0 S1 19 19).
Proof.
  intros Hq HS G Hsu HC. unfold ce_subgroup_decompress. destruct inv8_ok as [i8 [E8 H8]].
  assert (HV : md = Honest -> cvalue x = Some (ceval s x)) by (intros ->; apply G).
  destruct (subgroup_decompress_ok Hp d Hm1 Hd sqrt Hq l (ceval s x) (j_odd _ K)) as [o [Eo Ho]].
  assert (HP : md = Honest -> exists P, o = Some P /\ sub P /\ ex P = ceval s x).
  { intros Hm. destruct (HC Hm) as [P [SP XP]]. destruct o as [P'|].
    - exists P'. destruct Ho as [O1 [O2 [O3 _]]]. repeat split; auto.
    - exfalso. destruct SP as [O1 O2]. exact (Ho P O1 XP O2). }
  assert (HE : md = Honest -> exists P, sub P /\ ex P = ceval s x /\ 
     omapM (fun x => o <-? subgroup_decompress sqrt l d x ; i8 <-? inv8 l ; rmap e_pair (e_mul d (match o with Some P => P | None => jg J end) i8)) (cvalue x)
      = Ok (Some (e_pair (emul d (nval i8) P)))).
  { intros Hm. destruct (HP Hm) as [P [E1 [E2 E3]]]. exists P. split; auto. split; auto.
    rewrite HV by auto. cbn [omapM]. rewrite Eo. cbn [rbind]. rewrite E8. cbn [rbind]. rewrite E1, (e_mul_ok Hp d Hm1 Hd) by apply E2. reflexivity. }
  apply wp_lift_bind.
  { intros E. destruct md; auto; exfalso.
    - destruct (HE eq_refl) as [P [_ [_ X]]]. rewrite X in E. discriminate.
    - rewrite Hsu in E by auto. discriminate. }
  intros v Ev. eapply wp_use; [apply (wp_cp_alloc md s S0 v); auto|].
  { intros Hm. destruct (HE Hm) as [P [_ [_ X]]]. rewrite X in Ev. congruence. }
  { intros Hm. rewrite Hsu in Ev by auto. cbn in Ev. congruence. }
  intros S1 Q I1 [GQ [NQ [MQ [VQ B1]]]]. lift I1.
  assert (HQ : md = Honest -> onc (cpe s Q) /\ ex (emul d 8 (cpe s Q)) = ceval s x).
  { intros Hm. specialize (VQ Hm). destruct (HE Hm) as [P [SP [XP X]]]. rewrite X, VQ in Ev.
    assert (EQ : cpe s Q = emul d (nval i8) P) by (unfold e_pair in Ev; apply e_ext; congruence).
    rewrite EQ. split; [apply onc_em, SP|]. rewrite H8; auto. }
  eapply wp_use; [apply (wp_ce_in_curve Hp d A B Hm1 Hd HM md s S1 Q); auto; intros Hm; now apply HQ|].
  intros S2 _ I2 [CQ B2]. lift I2.
  eapply wp_use; [apply (wp_ce_cofactor Hp d A B Hm1 Hd HM md s S2 Q); auto; exact (newP_ncP s S0 Q HS NQ)|].
  intros S3 Q8 I3 [G8 [E8' [N8 [M8 B3]]]]. lift I3.
  assert (Nx : nonconst (csub x (px Q8))).
  { assert (Hx2 : good md s S2 x) by assumption. apply (newdep_nonconst s S2); auto; apply (newdep_sub_r Hp); [apply N8|apply Hx2]. }
  eapply wp_use; [apply (wp_assert_zero Hp md s S3); auto; try (apply good_sub; auto; apply G8)|].
  { intros Hm. rewrite ceval_sub. pose proof (proj2 (HQ Hm)) as X. rewrite <- (E8' ltac:(congruence)) in X. cbn [cpe ex] in X. rewrite X. ring. }
  intros S4 _ I4 [Z1 [B4 SU]]. lift I4. apply wp_ret. split; [assumption|]. split; [|split; [|split]].
  - intros Hm. split; [rewrite (E8' Hm); apply sub_8; auto|]. specialize (Z1 Hm). rewrite ceval_sub in Z1. symmetry. now apply (sub_eq0 Hp).
  - apply (newP_incl S0 S2); auto. inclt.
  - apply (newdep_incl S0 S2); auto. inclt.
  - specialize (B2 (newP_ncP s S0 Q HS NQ)). specialize (B3 (newdep_nonconst s S0 _ HS MQ)).
    exact (bump_trans _ _ _ _ _ _ _ (bump_trans _ _ _ _ _ _ _ (bump_trans _ _ _ _ _ _ _ B1 B2) B3) (B4 Nx)).
Qed.

(** Switch between points. *)
Lemma wp_cp_switch md s S0 (P : CPoint p) bit (Q : CPoint p) :
  okS s S0 -> goodP md s S0 P -> good md s S0 bit -> goodP md s S0 Q ->
  (md = Honest -> isbit (ceval s bit)) -> (md = Setup -> forall bv, as_const bit = Some bv -> isbit bv) ->
  nonconst (csub (px P) (px Q)) -> nonconst (csub (py P) (py Q)) ->
  wp md s S0 (cp_switch P bit Q) (fun S1 R =>
    goodP md s S1 R /\ (md <> Setup -> ceval s bit = 1 -> cpm s R = cpm s P) /\ (md <> Setup -> ceval s bit = 0 -> cpm s R = cpm s Q) /\
    (nonconst bit -> newP S0 R /\ bump S0 S1 2 2) /\ (as_const bit = Some 1 -> R = P /\ S1 = S0) /\ (as_const bit = Some 0 -> R = Q /\ S1 = S0)).
Proof.
  intros HS [G1 G2] Gb [G3 G4] Hh Hsu Nx Ny. unfold cp_switch. destruct (as_const bit) as [bv|] eqn:Eb.
  - destruct P as [Px Py], Q as [Qx Qy]; cbn [px py] in *.
    pose proof (as_const_eval s bit bv (proj2 HS) Eb) as Ebv.
    unfold cswitch, cb_as_const. rewrite Eb. cbn [omapM]. apply wp_bind.
    assert (IB : md = Sound \/ isbit bv) by (destruct md; [now left|right; rewrite <- Ebv; auto|right; auto]).
    destruct (ninto_bool bv) as [b|] eqn:En.
    2:{ cbn. destruct IB as [|IB]; auto. destruct (ninto_bool_ok Hp bv IB) as [b [X _]]. congruence. }
    apply ninto_bool_inv in En. cbn [rbind plift pbind]. pose proof (n1_neq_n0 Hp) as N10.
    destruct b; cbn [nbool] in En; subst bv; apply wp_ret; apply wp_bind, wp_ret, wp_ret; (split; [split; auto|]);
      rewrite En in *; repeat split; intros; auto; try congruence; try discriminate.
  - eapply wp_use; [apply (wp_switch_nc Hp md s S0 (px P) bit (px Q)); auto|]. intros S1 x I1 [Gx [Ex1 [Ex0 [Dx B1]]]]. lift I1.
    eapply wp_use; [apply (wp_switch_nc Hp md s S1 (py P) bit (py Q)); auto|]. intros S2 y I2 [Gy [Ey1 [Ey0 [Dy B2]]]]. lift I2.
    apply wp_ret. split; [split; auto|]. repeat split; cbn [px py]; intros; try discriminate.
    + unfold cpm; cbn [px py]. f_equal; auto.
    + unfold cpm; cbn [px py]. f_equal; auto.
    + exact Dx.
    + exact (newdep_incl _ _ _ I1 Dy).
    + apply (bump_trans _ _ _ _ _ _ _ B1 B2).
    + apply (bump_trans _ _ _ _ _ _ _ B1 B2).
Qed.
End Sub.
