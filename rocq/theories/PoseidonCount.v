(** Poseidon: constraint counts, and the two invariants of every run (cached
    values, same shape in setup and proving). *)

From Verif Require Export PoseidonSpec.

Section Count.
Context {p : positive} (Hp : prime (Zpos p)).
Notation F := (Num p).
Open Scope num_scope.
Add Field pc_field : (num_field Hp) (morphism (@num_morph p), constants [num_cst], power_tac (@num_power p) [num_pow_cst]).
Implicit Types (P : PoseidonParams p) (s : Index -> Num p) (c : CNum p) (v : F).

Lemma nonconst_add_num (a : CNum p) k : canonical (clc a) -> nonconst a -> nonconst (cadd_num a k).
Proof.
  intros Ha Hn. destruct (nonconst_coef a Ha Hn) as [i [Hi Hc]]. apply (coef_nonconst _ i); auto.
  now rewrite ccoef_add_num.
Qed.
Definition isconst (c : CNum p) : Prop := exists v, as_const c = Some v.
Lemma isconst_dec c : isconst c \/ nonconst c.
Proof. unfold isconst, nonconst. destruct (as_const c); [left; eauto|now right]. Qed.

(** No dependence on the variables of [S0]. *)
Definition apart (S0 : st) (c : CNum p) : Prop := forall i, In i (su S0) -> i <> I0 -> ccoef c i = 0.
Lemma isconst_apart S0 c : isconst c -> apart S0 c.
Proof.
  intros [v Hv] i _ Hi. destruct (num_eq_dec (ccoef c i) 0) as [|Hc]; auto.
  apply coef_nonconst in Hc; auto. unfold nonconst in Hc. congruence.
Qed.
Lemma isvar_apart S0 S1 c : isvar S0 S1 c -> apart S0 c.
Proof.
  intros H i Hi _. destruct (isvar_coef Hp _ _ _ H) as [j [H1 [H2 H3]]]. rewrite H3.
  destruct (ieqb j i) eqn:E; auto. apply ieqb_eq in E; subst; contradiction.
Qed.
Lemma apart_incl S0 S1 c : apart S1 c -> incl (su S0) (su S1) -> apart S0 c.
Proof. intros H I i Hi. apply H. auto. Qed.

(** Depends on a variable that is not in [S0]. *)
Definition newdep (S0 : st) (c : CNum p) : Prop := exists i, ~ In i (su S0) /\ i <> I0 /\ ccoef c i <> 0.
Lemma newdep_nonconst S0 c : newdep S0 c -> nonconst c.
Proof. intros [i [_ [H1 H2]]]. now apply (coef_nonconst _ i). Qed.
Lemma newdep_incl S0 S1 c : newdep S1 c -> incl (su S0) (su S1) -> newdep S0 c.
Proof. intros [i [H1 [H2 H3]]] I. exists i. auto. Qed.

Lemma cmul_num_const c v k : as_const c = Some v -> as_const (cmul_num c k) = Some (v * k).
Proof. intros. destruct (num_eq_dec k 0) as [->|Hk].
  - unfold cmul_num. rewrite (proj2 (nis_zero_eq 0) eq_refl). cbn. f_equal. ring.
  - now apply as_const_mul_num.
Qed.
Lemma sigma_const c v : as_const c = Some v -> exists c', c_sigma c = Ret c' /\ isconst c'.
Proof.
  intros H. unfold c_sigma. rewrite (cmul_const1 _ _ _ H). cbn [pbind].
  pose proof (cmul_num_const _ _ v H) as H2. rewrite (cmul_const1 _ _ _ H2). cbn [pbind].
  pose proof (cmul_num_const _ _ (v * v) H2) as H3. rewrite (cmul_const1 _ _ _ H3).
  eexists. split; [reflexivity|]. eexists. apply cmul_num_const. exact H.
Qed.
Lemma isvar_incl S0 S1 S2 c : isvar S1 S2 c -> incl (su S0) (su S1) -> isvar S0 S2 c.
Proof. intros [i [H1 [H2 H3]]] I. exists i. auto. Qed.

Lemma wp_sigma_nc md s S0 a : okS s S0 -> good md s S0 a -> nonconst a ->
  wp md s S0 (c_sigma a) (fun S1 r => good md s S1 r /\ isvar S0 S1 r /\ bump S0 S1 3 3).
Proof.
  intros HS G N. unfold c_sigma.
  eapply wp_use; [apply (wp_cmul_nc Hp); auto|]. intros S1 b I1 [[G1 _] [V1 B1]].
  pose proof (isvar_nonconst _ _ _ _ HS V1). lift_good I1.
  eapply wp_use; [apply (wp_cmul_nc Hp); auto|]. intros S2 c I2 [[G2 _] [V2 B2]].
  pose proof (isvar_nonconst _ _ _ _ HS V2). lift_good I2.
  eapply wp_mono; [apply (wp_cmul_nc Hp); auto|]. intros S3 d I3 [[G3 _] [V3 B3]]. split; auto. split.
  - eapply isvar_incl; [exact V3|]. eauto using incl_tran.
  - apply (bump_trans S0 S1 S3 1 1 2 2); auto. apply (bump_trans S1 S2 S3 1 1 1 1); auto.
Qed.
(** Number of non-constant entries. *)
Fixpoint nnc (l : list (CNum p)) : nat :=
  match l with [] => O | c :: l' => ((match as_const c with None => 1 | Some _ => 0 end) + nnc l')%nat end.
Lemma wp_map_sigma_cnt md s : forall st S0, okS s S0 -> Forall (good md s S0) st ->
  wp md s S0 (pmapM c_sigma st) (fun S1 r => Forall (good md s S1) r /\ length r = length st /\
     Forall (apart S0) r /\ bump S0 S1 (3 * nnc st) (3 * nnc st)).
Proof.
  induction st as [|a st IH]; intros S0 HS G; cbn [pmapM].
  - apply wp_ret. split; auto. split; auto. split; [constructor|apply bump_refl].
  - inversion G as [|? ? Ga Gst]; subst.
    assert (K : wp md s S0 (c_sigma a) (fun S1 r => good md s S1 r /\ apart S0 r /\
       bump S0 S1 (3 * nnc [a]) (3 * nnc [a]))).
    { destruct (as_const a) as [v|] eqn:Ea.
      - eapply wp_mono; [eapply (wp_and md s S0 _ _ (fun S1 r => apart S0 r /\ bump S0 S1 0 0)); [apply (wp_sigma Hp); eauto|]|].
        + destruct (sigma_const _ _ Ea) as [c [-> Hc]]. apply wp_ret.
          exact (conj (isconst_apart S0 c Hc) (bump_refl S0)).
        + intros S1 r _ [[G1 _] [H1 H2]]. split; auto. split; auto. cbn [nnc]. rewrite Ea. exact H2.
      - eapply wp_mono; [apply wp_sigma_nc; auto|]. intros S1 r _ [G1 [V1 B1]]. split; auto. split.
        + eapply isvar_apart; eauto.
        + cbn [nnc]. rewrite Ea. exact B1. }
    eapply wp_use; [exact K|]. intros S1 b I1 [Gb [Ab Bb]]. lift_good I1.
    eapply wp_use; [apply IH; auto|]. intros S2 r I2 [Gr [Lr [Ar Br]]]. lift_good I2.
    apply wp_ret. split; auto. split; [cbn; congruence|]. split.
    + constructor; auto. eapply Forall_impl; [|exact Ar]. intros c Hc. eapply apart_incl; eauto.
    + pose proof (bump_trans _ _ _ _ _ _ _ Bb Br) as B. cbn [nnc] in B |- *.
      replace (3 * ((match as_const a with Some _ => 0 | None => 1 end) + nnc st))%nat
        with (3 * ((match as_const a with Some _ => 0 | None => 1 end) + 0) + 3 * nnc st)%nat by lia. exact B.
Qed.

(** The mix layer spreads a variable of the first entry over the whole state. *)
Lemma mix_row_zeros row st (a r : F) : Forall (fun x => x = 0) st -> mix_row row st a = Ok r -> r = a.
Proof.
  intros H. revert row a. induction H as [|x st -> H IH]; intros [|k row] a E; cbn [mix_row] in E; try congruence.
  apply IH in E. rewrite E. ring.
Qed.
Lemma c_mix_rows_nc i x0 st : i <> I0 -> ccoef x0 i = 1 -> Forall (fun c => ccoef c i = 0) st ->
  forall n m r, Forall (fun row => nth 0 row 0 <> 0) m ->
  c_mix_rows n m (x0 :: st) = Ok r -> Forall (fun c => ccoef c i <> 0) r.
Proof.
  intros Hi H0 Hst. induction n as [|n IH]; intros [|row m] r Hm E; cbn [c_mix_rows] in E; try discriminate;
    try (assert (r = []) by congruence; subst; constructor).
  inversion Hm as [|? ? Hr Hm']; subst.
  destruct (c_mix_row row (x0 :: st) czero) as [x|] eqn:E1; [|discriminate]. cbn [rbind] in E.
  destruct (c_mix_rows n m (x0 :: st)) as [xs|] eqn:E2; [|discriminate]. cbn [rbind] in E.
  assert (r = x :: xs) by congruence. subst. constructor; [|eapply IH; eauto].
  rewrite ccoef_eval.
  pose proof (c_mix_row_eval Hp (unitv i) row (x0 :: st) czero) as K. rewrite E1 in K. cbn [rmap map] in K.
  destruct row as [|k row]; [cbn in Hr; congruence|]. cbn [mix_row] in K.
  apply mix_row_zeros in K.
  - rewrite <- !ccoef_eval in K. rewrite <- ccoef_eval, K, H0. unfold czero. rewrite ccoef_const by auto.
    cbn in Hr. intros Hk. apply Hr. rewrite <- Hk. ring.
  - clear -Hst. induction Hst as [|c st Hc Hst IH]; cbn; constructor; auto. now rewrite <- ccoef_eval.
Qed.
Lemma c_mix_nc i x0 st m r : i <> I0 -> ccoef x0 i = 1 -> Forall (fun c => ccoef c i = 0) st ->
  Forall (fun row => nth 0 row 0 <> 0) m -> c_mix m (x0 :: st) = Ok r -> Forall (fun c => ccoef c i <> 0) r.
Proof. intros H1 H2 H3 H4 H5. eapply c_mix_rows_nc; eauto. Qed.

(** The first column of the matrix has no zero: every state entry then depends
    on the first entry of the previous round. *)
Definition col0_nz P : Prop := Forall (fun row => nth 0 row 0 <> 0) (ppm P).
Definition round_cost P i (nc : nat) : nat := (3 * (if full_round P i then nc else 1))%nat.

Lemma nnc_ark st (c : F) : Forall (fun a => canonical (clc a)) st -> nnc (c_ark st c) = nnc st.
Proof.
  induction 1 as [|a st Ha H IH]; cbn [c_ark map nnc]; auto. fold (c_ark st c). rewrite IH. f_equal.
  destruct (as_const a) as [v|] eqn:Ea.
  - unfold cadd_num. now rewrite (as_const_add a (cconst c) v c Ea eq_refl).
  - now rewrite (nonconst_add_num a c Ha Ea).
Qed.
Lemma nnc_all st : Forall nonconst st -> nnc st = length st.
Proof. induction 1 as [|a st Ha H IH]; cbn; auto. now rewrite Ha, IH. Qed.

Lemma wp_round_cnt md s S0 P i x0 st : okS s S0 -> Forall (good md s S0) (x0 :: st) -> nonconst x0 ->
  pp_ok P -> S (length st) = ppt P -> (i < ppf P + ppp P)%nat -> col0_nz P ->
  wp md s S0 (c_round P i (x0 :: st)) (fun S1 r => Forall (good md s S1) r /\ length r = ppt P /\
     Forall (newdep S0) r /\ bump S0 S1 (round_cost P i (nnc (x0 :: st))) (round_cost P i (nnc (x0 :: st)))).
Proof.
  intros HS G N HP Hl Hi H0. assert (H00 : In I0 (su S0)) by apply HS. unfold c_round, round_cost.
  destruct (nth_error (ppc P) i) as [c|] eqn:Ec.
  2:{ apply nth_error_None in Ec. destruct HP. lia. }
  cbn [unwrap plift pbind]. cbv zeta.
  assert (Hmix : forall S1 y0 st1 j k, okS s S1 -> Forall (good md s S1) (y0 :: st1) -> length st1 = length st ->
      j <> I0 -> ~ In j (su S0) -> ccoef y0 j = 1 -> Forall (fun c => ccoef c j = 0) st1 -> bump S0 S1 k k ->
      wp md s S1 (plift (c_mix (ppm P) (y0 :: st1))) (fun S2 r => Forall (good md s S2) r /\ length r = ppt P /\
         Forall (newdep S0) r /\ bump S0 S2 k k)).
  { intros S1 y0 st1 j k HS1 G1 El Hj Hjn E1 E2 B.
    destruct (mix_ok P (map (ceval s) (y0 :: st1)) HP) as [r [Hr Lr]].
    { rewrite map_length. cbn. lia. }
    rewrite (c_mix_eval Hp s) in Hr; [|apply HS1|discriminate].
    destruct (c_mix (ppm P) (y0 :: st1)) as [r'|] eqn:Er; [|discriminate]. cbn [plift]. apply wp_ret.
    cbn [rmap] in Hr. assert (r = map (ceval s) r') by congruence. subst r. rewrite map_length in Lr.
    split; [eapply c_mix_good; eauto|]. split; auto. split; auto.
    eapply Forall_impl; [|eapply c_mix_nc; eauto]. cbn. intros a Ha. exists j. auto. }
  inversion G as [|? ? G0 Gst]; subst.
  assert (Hcan : Forall (fun a => canonical (clc a)) (x0 :: st)).
  { eapply Forall_impl; [|exact G]. intros a [[Ha _] _]. exact Ha. }
  change (c_full_round P i) with (full_round P i). destruct (full_round P i) eqn:Ef.
  - rewrite <- (nnc_ark _ c Hcan). cbn [c_ark map nnc pmapM]. fold (c_ark st c).
    assert (N' : as_const (cadd_num x0 c) = None) by (apply nonconst_add_num; auto; apply G0). rewrite N'.
    apply wp_bind. eapply wp_use; [apply wp_sigma_nc; auto with alw|]. intros S1 y0 I1 [Gy [Vy By]]. lift_good I1.
    eapply wp_use; [apply wp_map_sigma_cnt; auto; apply good_ark; auto|].
    intros S2 r I2 [Gr [Lr [Ar Br]]]. lift_good I2. apply wp_ret.
    destruct (isvar_coef Hp _ _ _ Vy) as [j [J1 [J2 J3]]].
    assert (Hj : j <> I0) by (intros ->; auto).
    apply (Hmix S2 y0 r j); auto.
    + unfold c_ark in Lr. now rewrite map_length in Lr.
    + now rewrite J3, ieqb_refl.
    + eapply Forall_impl; [|exact Ar]. intros a Ha. apply Ha; auto.
    + replace (3 * (1 + nnc (c_ark st c)))%nat with (3 + 3 * nnc (c_ark st c))%nat by lia. eapply bump_trans; eauto.
  - cbn [c_ark map]. fold (c_ark st c). apply wp_bind.
    assert (HS' := HS).
    eapply wp_use; [apply wp_sigma_nc; auto with alw; apply nonconst_add_num; auto; apply G0|].
    intros S1 y0 I1 [Gy [Vy By]]. 
    destruct (isvar_coef Hp _ _ _ Vy) as [j [J1 [J2 J3]]].
    assert (Hj : j <> I0) by (intros ->; apply J1; apply HS).
    assert (Hz : Forall (fun a => ccoef a j = 0) (c_ark st c)).
    { pose proof (good_ark md s S0 st c HS Gst) as Ga. eapply Forall_impl; [|exact Ga].
      intros a [Wa _]. eapply wf_coef_fresh; eauto. }
    pose proof (good_ark md s S0 st c HS Gst) as Ga. lift_good I1. apply wp_ret.
    apply (Hmix S1 y0 (c_ark st c) j); auto.
    + unfold c_ark. now rewrite map_length.
    + now rewrite J3, ieqb_refl.
Qed.
Fixpoint rounds_cost P (is : list nat) : nat :=
  match is with [] => O | i :: is' => (round_cost P i (ppt P) + rounds_cost P is')%nat end.
Lemma wp_rounds_cnt md s P T0 is : pp_ok P -> col0_nz P -> (0 < ppt P)%nat ->
  (forall i, In i is -> (i < ppf P + ppp P)%nat) ->
  forall S0 st, okS s S0 -> Forall (good md s S0) st -> Forall (newdep T0) st -> incl (su T0) (su S0) -> length st = ppt P ->
  wp md s S0 (c_rounds P is st) (fun S1 r => Forall (good md s S1) r /\ length r = ppt P /\
     Forall (newdep T0) r /\ bump S0 S1 (rounds_cost P is) (rounds_cost P is)).
Proof.
  intros HP H0 Ht. induction is as [|i is IH]; intros Hi S0 st HS G N IT L; cbn [c_rounds rounds_cost].
  - apply wp_ret. split; auto. split; auto. split; auto. apply bump_refl.
  - destruct st as [|x0 st]; [cbn in L; lia|]. assert (N0 := N). inversion N0 as [|? ? N1 N2]; subst.
    eapply wp_use; [apply wp_round_cnt; eauto using newdep_nonconst; apply Hi; now left|].
    intros S1 r I1 [Gr [Lr [Nr Br]]]. lift_good I1. rewrite nnc_all in Br by (eapply Forall_impl; [|exact N]; intros a Ha; eapply newdep_nonconst; eauto). rewrite L in Br.
    eapply wp_mono; [apply IH; auto; [intros j Hj; apply Hi; now right| |eauto using incl_tran]|].
    { eapply Forall_impl; [|exact Nr]. intros a Ha. eapply newdep_incl; eauto. }
    intros S2 r2 I2 [G2 [L2 [N3 B2]]]. split; auto. split; auto. split; auto. eapply bump_trans; eauto.
Qed.
Definition poseidon_cost P (n : nat) : nat := (3 * (n + ppt P * (ppf P - 1) + ppp P))%nat.
Lemma rounds_cost_app P l l' : rounds_cost P (l ++ l') = (rounds_cost P l + rounds_cost P l')%nat.
Proof. induction l; cbn; auto. rewrite IHl. lia. Qed.
Lemma rounds_cost_uniform P k l : (forall i, In i l -> round_cost P i (ppt P) = k) -> rounds_cost P l = (length l * k)%nat.
Proof. induction l as [|i l IH]; intros H; cbn [rounds_cost length Nat.mul]; auto. rewrite IH by (intros; apply H; now right). rewrite (H i) by now left. lia. Qed.
Lemma rounds_cost_total P : (2 <= ppf P)%nat ->
  (3 * ppt P + rounds_cost P (seq 1 (ppf P + ppp P - 1)) = 3 * (ppt P * ppf P + ppp P))%nat.
Proof.
  intros Hf. assert (E0 : round_cost P 0 (ppt P) = (3 * ppt P)%nat).
  { unfold round_cost, full_round. destruct (Nat.ltb_spec 0 (Nat.div2 (ppf P))); cbn [orb]; auto.
    rewrite Nat.div2_div in H. pose proof (Nat.div_le_mono 2 (ppf P) 2 ltac:(lia) Hf). rewrite Nat.div_same in H0; lia. }
  rewrite <- E0. change (round_cost P 0 (ppt P) + rounds_cost P (seq 1 (ppf P + ppp P - 1)))%nat
    with (rounds_cost P (0%nat :: seq 1 (ppf P + ppp P - 1))).
  replace (0%nat :: seq 1 (ppf P + ppp P - 1)) with (seq 0 (ppf P + ppp P)).
  2:{ replace (ppf P + ppp P)%nat with (S (ppf P + ppp P - 1)) at 1 by lia. reflexivity. }
  assert (Hh : (Nat.div2 (ppf P) <= ppf P)%nat).
  { rewrite Nat.div2_div. apply Nat.div_le_upper_bound; lia. }
  set (h := Nat.div2 (ppf P)) in *.
  replace (ppf P + ppp P)%nat with (h + (ppp P + (ppf P - h)))%nat by lia.
  rewrite seq_app, rounds_cost_app, seq_app, rounds_cost_app.
  rewrite (rounds_cost_uniform P (3 * ppt P) (seq 0 h)), (rounds_cost_uniform P 3 (seq (0 + h) (ppp P))),
    (rounds_cost_uniform P (3 * ppt P) (seq (0 + h + ppp P) (ppf P - h))).
  - rewrite !seq_length. nia.
  - intros i Hi. apply in_seq in Hi. unfold round_cost, full_round. fold h.
    rewrite (proj2 (Nat.leb_le (h + ppp P) i)) by lia. now rewrite Bool.orb_true_r.
  - intros i Hi. apply in_seq in Hi. unfold round_cost, full_round. fold h.
    rewrite (proj2 (Nat.leb_gt (h + ppp P) i)), (proj2 (Nat.ltb_ge i h)) by lia. reflexivity.
  - intros i Hi. apply in_seq in Hi. unfold round_cost, full_round. fold h.
    rewrite (proj2 (Nat.ltb_lt i h)) by lia. reflexivity.
Qed.
Lemma nnc_app l l' : nnc (l ++ l') = (nnc l + nnc l')%nat.
Proof. induction l; cbn; auto. rewrite IHl. lia. Qed.
Lemma nnc_zeros n : nnc (repeat czero n) = O.
Proof. induction n; cbn; auto. Qed.
Lemma wp_poseidon_nnc md s S0 P (x0 : CNum p) (ins : list (CNum p)) : okS s S0 -> Forall (good md s S0) (x0 :: ins) -> nonconst x0 ->
  pp_ok P -> col0_nz P -> (2 <= ppf P)%nat -> (0 < length (x0 :: ins) <= ppt P)%nat ->
  wp md s S0 (c_poseidon P (x0 :: ins)) (fun S1 r => good md s S1 r /\ newdep S0 r /\
     bump S0 S1 (poseidon_cost P (nnc (x0 :: ins))) (poseidon_cost P (nnc (x0 :: ins)))).
Proof.
  intros HS G N1 HP H0 Hf [L1 L2]. unfold c_poseidon.
  rewrite (proj2 (Nat.leb_le _ _) L2), (proj2 (Nat.ltb_lt _ _) L1). cbn [passert pbind].
  replace (ppf P + ppp P)%nat with (S (ppf P + ppp P - 1)) by lia. cbn [seq c_rounds].
  cbn [app]. apply wp_bind.
  inversion G as [|? ? G1 G2]; subst.
  assert (Gz : Forall (good md s S0) (ins ++ repeat czero (ppt P - length (x0 :: ins)))).
  { apply Forall_app. split; auto. apply Forall_repeat. auto with alw. }
  eapply wp_use; [apply wp_round_cnt; auto|].
  - rewrite app_length, repeat_length. cbn [length] in *. lia.
  - lia.
  - intros S1 r I1 [Gr [Lr [Nr Br]]]. lift_good I1. eapply wp_mono; [apply (wp_rounds_cnt md s P S0); auto; [lia|]|].
    + intros i Hi. apply in_seq in Hi. lia.
    + intros S2 r2 I2 [G3 [L3 [N3 B3]]]. destruct r2 as [|y r2]; [cbn in L3; lia|]. cbn [nth_error unwrap plift].
      apply wp_ret. inversion G3; subst. inversion N3; subst. split; auto. split; auto.
      pose proof (bump_trans _ _ _ _ _ _ _ Br B3) as B.
      change (x0 :: ins ++ repeat czero (ppt P - length (x0 :: ins)))
        with ((x0 :: ins) ++ repeat czero (ppt P - length (x0 :: ins))) in B.
      rewrite nnc_app, nnc_zeros in B.
      pose proof (rounds_cost_total P Hf) as T.
      assert (Ec : (round_cost P 0 (nnc (x0 :: ins) + 0) + rounds_cost P (seq 1 (ppf P + ppp P - 1)) =
                    poseidon_cost P (nnc (x0 :: ins)))%nat).
      { unfold round_cost, full_round, poseidon_cost.
        destruct (Nat.ltb_spec 0 (Nat.div2 (ppf P))).
        - cbn [orb]. nia.
        - exfalso. rewrite Nat.div2_div in H. pose proof (Nat.div_le_mono 2 (ppf P) 2 ltac:(lia) Hf).
          rewrite Nat.div_same in *; lia. }
      rewrite Ec in B. exact B.
Qed.
Lemma wp_poseidon_cnt md s S0 P (ins : list (CNum p)) : okS s S0 -> Forall (good md s S0) ins -> Forall nonconst ins ->
  pp_ok P -> col0_nz P -> (2 <= ppf P)%nat -> (0 < length ins <= ppt P)%nat ->
  wp md s S0 (c_poseidon P ins) (fun S1 r => good md s S1 r /\ newdep S0 r /\
     bump S0 S1 (poseidon_cost P (length ins)) (poseidon_cost P (length ins))).
Proof.
  intros HS G N HP H0 Hf L. destruct ins as [|x0 ins]; [cbn in L; lia|]. rewrite <- (nnc_all (x0 :: ins)) by auto.
  apply wp_poseidon_nnc; auto. now inversion N.
Qed.

(** Merkle proof. *)
Lemma ccoef_switch_nc md s S0 a bit b : okS s S0 -> good md s S0 a -> good md s S0 bit -> good md s S0 b ->
  nonconst bit -> nonconst (csub a b) ->
  wp md s S0 (cswitch a bit b) (fun S1 r => good md s S1 r /\ bump S0 S1 1 1 /\
     exists i, ~ In i (su S0) /\ i <> I0 /\ ccoef r i = 1).
Proof.
  intros HS Ga Gbit Gb Nb Nab. unfold cswitch, cb_as_const. unfold nonconst, CBool in *. rewrite Nb. cbn [omapM plift pbind].
  assert (Nba : as_const (csub b a) = None).
  { destruct (nonconst_coef (csub a b)) as [i [Hi Hc]]; [apply (good_sub md s S0 a b Ga Gb)|exact Nab|].
    apply (coef_nonconst _ i); auto. rewrite ccoef_sub in *. intros E. apply Hc.
    replace (ccoef a i - ccoef b i) with (- (ccoef b i - ccoef a i)) by ring. rewrite E. ring. }
  assert (N1b : as_const (num_csub 1 bit) = None).
  { destruct (nonconst_coef bit) as [i [Hi Hc]]; [apply Gbit|exact Nb|].
    apply (coef_nonconst _ i); auto. rewrite ccoef_num_sub by auto. intros E. apply Hc.
    replace (ccoef bit i) with (- - ccoef bit i) by ring. rewrite E. ring. }
  destruct Nat.ltb.
  - eapply wp_use; [apply (wp_cmul_nc Hp); auto with alw|]. intros S1 t I1 [[Gt _] [Vt Bt]].
    destruct (isvar_coef Hp _ _ _ Vt) as [j [J1 [J2 J3]]].
    assert (Hj : j <> I0) by (intros ->; apply J1; apply HS).
    assert (Ez : ccoef b j = 0) by (eapply wf_coef_fresh; [apply Gb|auto]).
    lift_good I1. apply wp_ret. split; [auto with alw|]. split; auto. exists j. split; auto. split; auto.
    rewrite ccoef_add_rv, J3, ieqb_refl, Ez. ring.
  - eapply wp_use; [apply (wp_cmul_nc Hp); auto with alw|]. intros S1 t I1 [[Gt _] [Vt Bt]].
    destruct (isvar_coef Hp _ _ _ Vt) as [j [J1 [J2 J3]]].
    assert (Hj : j <> I0) by (intros ->; apply J1; apply HS).
    assert (Ez : ccoef a j = 0) by (eapply wf_coef_fresh; [apply Ga|auto]).
    lift_good I1. apply wp_ret. split; [auto with alw|]. split; auto. exists j. split; auto. split; auto.
    rewrite ccoef_add_rv, J3, ieqb_refl, Ez. ring.
Qed.
Lemma wp_merkle_cnt md s P : pp_ok P -> col0_nz P -> (2 <= ppf P)%nat -> (2 <= ppt P)%nat ->
  forall proof S0 root, okS s S0 -> good md s S0 root ->
  Forall (fun bs => good md s S0 (fst bs) /\ good md s S0 (snd bs) /\ nonconst (fst bs)) proof ->
  (match proof with [] => True | bs :: _ => nonconst (csub (snd bs) root) end) ->
  wp md s S0 (c_merkle_proof_root P root proof) (fun S1 r => good md s S1 r /\
    bump S0 S1 (length proof * (1 + poseidon_cost P 2)) (length proof * (1 + poseidon_cost P 2))).
Proof.
  intros HP H0 Hf Ht. induction proof as [|[b c] proof IH]; intros S0 root HS Gr Gp Hn; cbn [c_merkle_proof_root].
  - apply wp_ret. split; auto. apply bump_refl.
  - inversion Gp as [|? ? [Gb [Gc Nb]] Gp']; subst. cbn [fst snd] in *.
    eapply wp_use; [apply ccoef_switch_nc; eauto|]. intros S1 first I1 [Gf [B1 [j [J1 [J2 J3]]]]].
    assert (Z1 : ccoef root j = 0) by (eapply wf_coef_fresh; [apply Gr|auto]).
    assert (Z2 : ccoef c j = 0) by (eapply wf_coef_fresh; [apply Gc|auto]).
    lift_good I1. cbv zeta. eapply wp_use.
    { apply (wp_poseidon_cnt md s S1 P [first; csub (cadd_cap root c) first]); auto with alw; [|cbn; lia].
      constructor; [|constructor; [|constructor]]; apply (coef_nonconst _ j); auto.
      - rewrite J3. apply (n1_neq_n0 Hp).
      - rewrite ccoef_sub, ccoef_add_cap, J3, Z1, Z2. intros E. apply (n1_neq_n0 Hp).
        replace (1 : F) with (- (0 + 0 - 1 : F)) by ring. rewrite E. ring. }
    intros S2 h I2 [Gh [Nh B2]]. lift_good I2. eapply wp_mono.
    { apply IH; auto.
      - eapply Forall_impl; [|exact Gp']. cbn. intros x [X [Y Z]]. split; [|split]; auto; eapply good_incl; eauto using incl_tran.
      - destruct proof as [|[b' c'] proof]; auto. inversion Gp' as [|? ? [_ [Gc' _]] _]; subst. cbn [snd] in *.
        destruct Nh as [i [Ni1 [Ni2 Ni3]]]. apply (coef_nonconst _ i); auto. rewrite ccoef_sub.
        rewrite (wf_coef_fresh S0 c' i); [|apply Gc'|auto]. intros E. apply Ni3.
        replace (ccoef h i) with (- (0 - ccoef h i)) by ring. rewrite E. ring. }
    intros S3 r I3 [G3 B3]. split; auto. pose proof (bump_trans _ _ _ _ _ _ _ B1 (bump_trans _ _ _ _ _ _ _ B2 B3)) as B.
    cbn [length] in *. replace (S (length proof) * (1 + poseidon_cost P 2))%nat with
      (1 + (poseidon_cost P 2 + length proof * (1 + poseidon_cost P 2)))%nat by lia. exact B.
Qed.
End Count.
