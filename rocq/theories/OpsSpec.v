(** The invariants of circuits built from library calls. *)

From Verif Require Export Ops CEccMeta.

Section AlwOps.
Context {p l : positive} (Hp : prime (Zpos p)).
Notation F := (Num p).
Open Scope num_scope.
Context (sqrt : F -> option F) (PP : PoseidonParams p) (J : JubJub p l).
Context (md : mode) (s : Index -> F).
Notation GOODS := (fun S1 r => Forall (good md s S1) r).

Lemma alw_reg S0 R i : Forall (good md s S0) R -> alw md s S0 (reg R i) (fun S1 r => S1 = S0 /\ good md s S0 r).
Proof.
  intros G. unfold reg. apply alw_lift0. intros a E. destruct (nth_error R i) eqn:En; [|discriminate]. cbn in E.
  assert (c = a) by congruence. subst. split; auto. eapply nth_error_Forall; eauto.
Qed.
Lemma alw_regs S0 R is : Forall (good md s S0) R -> alw md s S0 (regs R is) (fun S1 r => S1 = S0 /\ Forall (good md s S0) r).
Proof.
  intros G. unfold regs. induction is as [|i is IH]; cbn [pmapM]; [apply alw_ret; auto|].
  eapply alw_use; [apply alw_reg; exact G|]. intros S1 a _ [-> Ga].
  eapply alw_use; [exact IH|]. intros S1 r _ [-> Gr]. apply alw_ret. auto.
Qed.
Lemma alw_rpt S0 R P : Forall (good md s S0) R -> alw md s S0 (rpt R P) (fun S1 r => S1 = S0 /\ goodP md s S0 r).
Proof.
  intros G. unfold rpt. eapply alw_use; [apply alw_reg; exact G|]. intros S1 x _ [-> Gx].
  eapply alw_use; [apply alw_reg; exact G|]. intros S1 y _ [-> Gy]. apply alw_ret. split; auto. split; auto.
Qed.
Lemma alw_r1 S0 m : alw md s S0 m (fun S1 r => good md s S1 r) -> alw md s S0 (r1 m) GOODS.
Proof. intros H. unfold r1. eapply alw_use; [exact H|]. intros S1 a _ G. apply alw_ret. auto. Qed.
Lemma alw_r0 S0 m : alw md s S0 m (fun _ _ => True) -> alw md s S0 (r0 m) GOODS.
Proof. intros H. unfold r0. eapply alw_use; [exact H|]. intros S1 a _ G. apply alw_ret. auto. Qed.
Lemma alw_rP S0 m : alw md s S0 m (goodP md s) -> alw md s S0 (rP m) GOODS.
Proof. intros H. unfold rP. eapply alw_use; [exact H|]. intros S1 a _ [G1 G2]. apply alw_ret. auto. Qed.

Context (g : bool) (wit : nat -> option F).
Hypothesis W1 : md = Honest -> forall k, wit k <> None.
Hypothesis W2 : md = Setup -> (forall k, wit k = None) /\ g = true /\ ju J <> 0.

Lemma isconst_b_nc (c : CNum p) : negb (isconst_b c) = true -> nonconst c.
Proof. unfold isconst_b, nonconst. destruct (as_const c); [discriminate|auto]. Qed.
Ltac rg := eapply alw_use; [first [apply alw_reg|apply alw_regs|apply alw_rpt]; eassumption|];
  let x := fresh "x" in let G := fresh "G" in intros ? x _ [-> G].
Lemma alw_step_op S0 R o : okS s S0 -> Forall (good md s S0) R -> alw md s S0 (step sqrt PP J g wit R o) GOODS.
Proof.
  intros HS GR. destruct o; cbn [step]; repeat rg;
    try (apply alw_ret; apply Forall_cons; [|apply Forall_nil]; solve [eauto with alw | apply good_const; apply HS | apply good_neg; apply G]);
    try (apply alw_r1; first
      [ apply (alw_cmul Hp) | apply (alw_csquare Hp) | apply (alw_cdiv Hp) | apply (alw_is_zero Hp) | apply (alw_is_eq Hp)
      | apply (alw_switch Hp) | apply (alw_comp_constant Hp) | apply (alw_poseidon Hp) | apply (alw_poseidon_with_salt Hp)
      | apply (alw_merkle_proof_root Hp) | apply (alw_tree_root Hp) ]; solve [eauto with alw]);
    try (apply alw_r0; first
      [ apply (alw_inputize Hp) | apply alw_assert_const | apply alw_assert_zero | apply alw_assert_eq | apply (alw_assert_nonzero Hp)
      | apply alw_assert_bit | apply alw_cb_assert | apply alw_cb_assert_const | apply (alw_ce_assert_in_curve Hp) ]; solve [eauto with alw]);
    try (apply alw_rP; first
      [ apply (alw_cp_switch Hp) | apply (alw_ce_double Hp) | apply (alw_ce_cofactor Hp) | apply (alw_ce_add Hp)
      | apply (alw_ce_into_montgomery Hp) | apply (alw_cm_double Hp) | apply (alw_cm_add Hp) | apply (alw_cm_into_edwards Hp)
      | apply (alw_ce_mul Hp) ]; solve [eauto with alw]).
  - apply alw_r1. apply (alw_calloc Hp); [intros E; now apply W1|intros E; now apply W2].
  - apply alw_r1. apply alw_lift0. intros r E. eapply (good_cdiv_num Hp); eauto.
  - apply alw_r1. apply (alw_cballoc Hp).
    + intros E. pose proof (W1 E w). destruct (wit w); [discriminate|congruence].
    + intros E. destruct (W2 E) as [-> _]. reflexivity.
  - apply (alw_into_bits Hp); auto.
  - apply (alw_into_bits_strict Hp); auto.
  - apply alw_r1. apply alw_lift0. intros r E. eapply good_from_bits; eauto.
  - apply (alw_mux3 Hp); auto.
  - apply alw_passert. intros E. apply alw_r0. apply (alw_ce_assert_in_subgroup Hp); auto. intros Em.
    destruct (W2 Em) as [_ [-> _]]. cbn in E. unfold cp_as_const, isconst_b in *.
    destruct (as_const (px x)); auto. destruct (as_const (py x)); auto. discriminate.
  - apply alw_passert. intros E. apply alw_rP. apply (alw_ce_decompress Hp); auto. intros Em.
    destruct (W2 Em) as [_ [-> _]]. cbn in E. now apply isconst_b_nc.
  - apply alw_passert. intros E. apply alw_rP. apply (alw_ce_from_scalar Hp); auto. intros Em.
    destruct (W2 Em) as [_ [-> U]]. cbn in E. split; auto. now apply isconst_b_nc.
  - apply alw_passert. intros E. apply alw_r1. apply (alw_eddsa Hp); auto. intros Em.
    destruct (W2 Em) as [_ [-> _]]. cbn in E. apply andb_true_iff in E as [E1 E2]. split; now apply isconst_b_nc.
Qed.
Theorem alw_circuit ops : forall S0 R, okS s S0 -> Forall (good md s S0) R -> alw md s S0 (circuit sqrt PP J g wit ops R) GOODS.
Proof.
  induction ops as [|o ops IH]; intros S0 R HS GR; cbn [circuit]; [now apply alw_ret|].
  eapply alw_use; [apply alw_step_op; auto|]. intros S1 r I1 Gr. lift_good I1. apply IH; auto. apply Forall_app. auto.
Qed.
End AlwOps.

Section ShpOps.
Context {p l : positive} (Hp : prime (Zpos p)).
Notation F := (Num p).
Open Scope num_scope.
Context (sqrt : F -> option F) (PP : PoseidonParams p) (J : JubJub p l).
Context (st : bool) (g : bool) (wit wit' : nat -> option F).
Hypothesis W : st = true -> forall k, ole (wit k) (wit' k).
Hypothesis HB : st = true -> (2 <= num_bits p)%nat.
Notation sm := (@sm p st).
Notation sml := (Forall2 sm).

(** Bit limits within the size of the field. *)
Definition limits (o : @op p) : Prop :=
  match o with
  | oIntoBits _ n => (n <= num_bits p)%nat
  | oCompConstant bs _ => (Nat.div2 (length bs) + length bs mod 2 + 1 <= num_bits p)%nat
  | _ => True
  end.

Lemma shp_regs R R' is : sml R R' -> shp st (fun l l' => sml l l' /\ length l = length is) (regs R is) (regs R' is).
Proof.
  intros H. unfold regs. induction is as [|i is IH]; cbn [pmapM]; [apply shp_ret; auto|].
  eapply shp_bind; [apply shp_nth; exact H|]. intros a a' Ha. eapply shp_bind; [exact IH|]. intros r r' [Hr Er].
  apply shp_ret. split; auto. cbn. now rewrite Er.
Qed.
Lemma shp_rpt R R' P : sml R R' -> shp st (smP st) (rpt R P) (rpt R' P).
Proof.
  intros H. unfold rpt. eapply shp_bind; [apply shp_nth; exact H|]. intros a a' Ha.
  eapply shp_bind; [apply shp_nth; exact H|]. intros b b' Hb. apply shp_ret. split; auto.
Qed.
Lemma shp_r1 m m' : shp st sm m m' -> shp st sml (r1 m) (r1 m').
Proof. intros H. unfold r1. eapply shp_bind; [exact H|]. intros a b Hab. apply shp_ret. auto. Qed.
Lemma shp_r0 m m' : shp st eq m m' -> shp st sml (r0 m) (r0 m').
Proof. intros H. unfold r0. eapply shp_bind; [exact H|]. intros a b Hab. apply shp_ret. constructor. Qed.
Lemma shp_rP m m' : shp st (smP st) m m' -> shp st sml (rP m) (rP m').
Proof. intros H. unfold rP. eapply shp_bind; [exact H|]. intros a b [H1 H2]. apply shp_ret. auto. Qed.
Lemma sm_isconst x x' : sm x x' -> isconst_b x = isconst_b x'.
Proof. intros H. unfold isconst_b. now rewrite (sm_as_const st _ _ H). Qed.
Ltac rg := eapply shp_bind; [first [apply shp_nth|apply shp_regs|apply shp_rpt]; eassumption|];
  let x := fresh "x" in let y := fresh "y" in let G := fresh "G" in intros x y G; cbv beta in G;
  match type of G with _ /\ length _ = _ => let E := fresh "E" in destruct G as [G E] | _ => idtac end.
Lemma shp_step_op R R' o : sml R R' -> (st = true -> limits o) ->
  shp st sml (step sqrt PP J g wit R o) (step sqrt PP J g wit' R' o).
Proof.
  intros GR HL. destruct o; cbn [step]; unfold reg in *; repeat rg;
    try (apply shp_ret; apply Forall2_cons; [|apply Forall2_nil]; solve [eauto with shp | apply sm_const | apply G]);
    try (apply shp_r1; first
      [ apply (shp_cmul st) | apply (shp_csquare st) | apply (shp_cdiv st) | apply (shp_is_zero st) | apply (shp_is_eq st)
      | apply (shp_switch st) | apply (shp_poseidon st) | apply (shp_poseidon_with_salt st)
      | apply (shp_merkle_proof_root st) | apply (shp_tree_root st) | apply shp_from_bits ]; solve [eauto with shp]);
    try (apply shp_r0; first
      [ apply (shp_inputize st) | apply (shp_assert_const st) | apply (shp_assert_zero st) | apply (shp_assert_eq st) | apply (shp_assert_nonzero st)
      | apply (shp_assert_bit st) | apply (shp_cb_assert st) | apply (shp_cb_assert_const st) | apply shp_ce_assert_in_curve ]; solve [eauto with shp]);
    try (apply shp_rP; first
      [ apply shp_cp_switch | apply shp_ce_double | apply shp_ce_cofactor | apply shp_ce_add
      | apply shp_ce_into_montgomery | apply shp_cm_double | apply shp_cm_add | apply shp_cm_into_edwards
      | apply shp_ce_mul ]; solve [eauto with shp]).
  - apply shp_r1. apply shp_calloc. auto.
  - apply shp_r1. apply shp_lift. intros r E. eapply cdiv_num_sm; eauto.
  - apply shp_r1. apply shp_cballoc. intros E. apply ole_map. auto.
  - apply shp_into_bits; auto.
  - apply shp_into_bits_strict; auto.
  - apply shp_r1. apply shp_comp_constant; auto. rewrite E. exact HL.
  - now apply shp_mux3.
  - destruct G as [G1 G2]. rewrite <- (sm_isconst _ _ G1), <- (sm_isconst _ _ G2).
    eapply shp_bind; [apply shp_passert|]. intros [] [] _. apply shp_r0. apply shp_ce_assert_in_subgroup. split; auto.
  - rewrite <- (sm_isconst _ _ G). eapply shp_bind; [apply shp_passert|]. intros [] [] _. apply shp_rP. now apply shp_ce_decompress.
  - rewrite <- (sm_isconst _ _ G). eapply shp_bind; [apply shp_passert|]. intros [] [] _. apply shp_rP. apply shp_ce_from_scalar; auto.
  - rewrite <- (sm_isconst _ _ G0), <- (sm_isconst _ _ G1). eapply shp_bind; [apply shp_passert|]. intros [] [] _.
    apply shp_r1. apply shp_eddsa; auto.
Qed.
Theorem shp_circuit ops : forall R R', sml R R' -> (st = true -> Forall limits ops) ->
  shp st sml (circuit sqrt PP J g wit ops R) (circuit sqrt PP J g wit' ops R').
Proof.
  induction ops as [|o ops IH]; intros R R' HR HL; cbn [circuit]; [now apply shp_ret|].
  eapply shp_bind; [apply shp_step_op; auto; intros E; specialize (HL E); now inversion HL|].
  intros r r' Hr. apply IH; [now apply Forall2_app|]. intros E. specialize (HL E). now inversion HL.
Qed.
End ShpOps.
