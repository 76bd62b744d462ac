(** The curve gadgets keep cached values consistent (Always.v) and have the
    same shape in setup and proving runs (Shape.v). *)

From Verif Require Export PoseidonMeta CEccSpec.

Section AlwEcc.
Context {p : positive} (Hp : prime (Zpos p)).
Notation F := (Num p).
Open Scope num_scope.
Add Field cmeta_field : (num_field Hp) (morphism (@num_morph p), constants [num_cst], power_tac (@num_power p) [num_pow_cst]).
Context (md : mode) (s : Index -> F).
Notation GOOD := (fun S1 r => good md s S1 r).
Notation GOODS := (fun S1 r => Forall (good md s S1) r).
Notation TT := (fun (_ : st) (_ : unit) => True).
Definition goodP (S0 : st) (P : CPoint p) : Prop := good md s S0 (px P) /\ good md s S0 (py P).

Lemma goodP_incl S0 S1 P : goodP S0 P -> incl (su S0) (su S1) -> goodP S1 P.
Proof. intros [H1 H2] I. split; eapply good_incl; eauto. Qed.
Lemma goodPs_incl S0 S1 l : Forall (goodP S0) l -> incl (su S0) (su S1) -> Forall (goodP S1) l.
Proof. intros H I. eapply Forall_impl; [|exact H]. intros. eapply goodP_incl; eauto. Qed.
Lemma goodP_const S0 x y : okS s S0 -> goodP S0 (cp_from_const x y).
Proof. intros. split; cbn; auto with alw. Qed.

Ltac liftP I :=
  match type of I with incl (su ?S0) (su _) =>
    repeat match goal with
    | H : goodP S0 _ |- _ => apply (fun h => goodP_incl _ _ _ h I) in H
    | H : Forall (goodP S0) _ |- _ => apply (fun h => goodPs_incl _ _ _ h I) in H
    end
  end; lift_good I.
Ltac stp lem :=
  eapply alw_use; [solve [apply lem; eauto 20 with alw]|];
  let I' := fresh "I" in let H' := fresh "G" in intros ? ? I' H'; cbv beta in H'; liftP I'; clear I'.

Lemma alw_cp_alloc S0 v : okS s S0 -> (md = Honest -> v <> None) -> (md = Setup -> v = None) ->
  alw md s S0 (cp_alloc v) goodP.
Proof.
  intros HS H1 H2. unfold cp_alloc. eapply alw_use; [apply (alw_calloc Hp)|].
  - intros E. specialize (H1 E). destruct v; [discriminate|congruence].
  - intros E. now rewrite (H2 E).
  - intros S1 x I1 G1. liftP I1. eapply alw_use; [apply (alw_calloc Hp)|].
    + intros E. specialize (H1 E). destruct v; [discriminate|congruence].
    + intros E. now rewrite (H2 E).
    + intros S2 y I2 G2. liftP I2. apply alw_ret. split; auto.
Qed.
Lemma alw_cp_switch S0 P bit Q : okS s S0 -> goodP S0 P -> good md s S0 bit -> goodP S0 Q ->
  alw md s S0 (cp_switch P bit Q) goodP.
Proof.
  intros HS [G1 G2] Gb [G3 G4]. unfold cp_switch.
  stp (@alw_switch p Hp). stp (@alw_switch p Hp). apply alw_ret. split; auto.
Qed.
Lemma alw_ce_double S0 dd P : okS s S0 -> goodP S0 P -> alw md s S0 (ce_double dd P) goodP.
Proof.
  intros HS [G1 G2]. unfold ce_double. stp (@alw_cmul p Hp). stp (@alw_csquare p Hp). stp (@alw_csquare p Hp).
  stp (@alw_cdiv p Hp). stp (@alw_cdiv p Hp). apply alw_ret. split; auto.
Qed.
Lemma alw_ce_cofactor S0 dd P : okS s S0 -> goodP S0 P -> alw md s S0 (ce_mul_by_cofactor dd P) goodP.
Proof. intros. unfold ce_mul_by_cofactor. stp alw_ce_double. stp alw_ce_double. now apply alw_ce_double. Qed.
Lemma alw_ce_add S0 dd P Q : okS s S0 -> goodP S0 P -> goodP S0 Q -> alw md s S0 (ce_add dd P Q) goodP.
Proof.
  intros HS [G1 G2] [G3 G4]. unfold ce_add. do 4 stp (@alw_cmul p Hp).
  stp (@alw_cdiv p Hp). stp (@alw_cdiv p Hp). apply alw_ret. split; auto.
Qed.
Lemma alw_ce_assert_in_curve S0 dd P : okS s S0 -> goodP S0 P -> alw md s S0 (ce_assert_in_curve dd P) TT.
Proof.
  intros HS [G1 G2]. unfold ce_assert_in_curve. stp (@alw_csquare p Hp). stp (@alw_csquare p Hp).
  apply alw_enforce; auto with alw.
Qed.
Lemma cp_value_modes S0 P : goodP S0 P -> (md = Honest -> cp_get_value P <> None) /\
  (md = Setup -> cp_as_const P = None -> cp_get_value P = None).
Proof.
  intros [G1 G2]. unfold cp_get_value, cp_as_const. split.
  - intros E. pose proof (honest_value _ _ _ _ G1 E). pose proof (honest_value _ _ _ _ G2 E).
    destruct (cvalue (px P)); [|congruence]. destruct (cvalue (py P)); [discriminate|congruence].
  - intros E. destruct (as_const (px P)) eqn:Ex.
    + destruct (as_const (py P)) eqn:Ey; [discriminate|]. intros _.
      rewrite (setup_value _ _ _ _ G2 Ey E). now destruct (cvalue (px P)).
    + intros _. now rewrite (setup_value _ _ _ _ G1 Ex E).
Qed.
Lemma omapM_some {A B} (f : A -> res B) v r : omapM f v = Ok r -> (v <> None -> r <> None) /\ (v = None -> r = None).
Proof.
  destruct v; cbn; [|intros [= <-]; split; congruence]. destruct (f a); cbn; intros [= <-]. split; congruence.
Qed.
Lemma alw_ce_assert_in_subgroup S0 l dd P : okS s S0 -> goodP S0 P -> (md = Setup -> cp_as_const P = None) ->
  alw md s S0 (ce_assert_in_subgroup l dd P) TT.
Proof.
  intros HS GP Hn. unfold ce_assert_in_subgroup. destruct (cp_value_modes _ _ GP) as [M1 M2].
  apply alw_lift. intros v Hv. apply omapM_some in Hv as [V1 V2].
  eapply alw_use; [apply alw_cp_alloc; auto|]. intros S1 Q I1 GQ. liftP I1.
  stp alw_ce_assert_in_curve. stp alw_ce_cofactor. destruct GP as [G1 G2]. destruct G0 as [G3 G4].
  stp (@alw_assert_zero p). apply alw_assert_zero; auto with alw.
Qed.
Lemma alw_ce_decompress S0 sqrt l (J : JubJub p l) x : okS s S0 -> good md s S0 x -> (md = Setup -> nonconst x) ->
  alw md s S0 (ce_subgroup_decompress sqrt J x) goodP.
Proof.
  intros HS G Hn. unfold ce_subgroup_decompress. apply alw_lift. intros v Hv. apply omapM_some in Hv as [V1 V2].
  eapply alw_use; [apply alw_cp_alloc; auto|].
  - intros E. apply V1. eapply honest_value; eauto.
  - intros E. apply V2. eapply setup_value; eauto.
  - intros S1 Q I1 GQ. liftP I1. stp alw_ce_assert_in_curve. stp alw_ce_cofactor. destruct G1 as [G3 G4].
    stp (@alw_assert_zero p). apply alw_ret. split; auto.
Qed.
Lemma alw_ce_into_montgomery S0 P : okS s S0 -> goodP S0 P -> alw md s S0 (ce_into_montgomery P) goodP.
Proof.
  intros HS [G1 G2]. unfold ce_into_montgomery. stp (@alw_cdiv p Hp). stp (@alw_cdiv p Hp). apply alw_ret. split; auto.
Qed.
Lemma alw_cm_double S0 a b P : okS s S0 -> goodP S0 P -> alw md s S0 (cm_double a b P) goodP.
Proof.
  intros HS [G1 G2]. unfold cm_double. stp (@alw_csquare p Hp). stp (@alw_cdiv p Hp). stp (@alw_csquare p Hp).
  cbv zeta. stp (@alw_cmul p Hp). apply alw_ret. split; cbn [px py]; auto 10 with alw.
Qed.
Lemma alw_cm_add S0 a b P Q : okS s S0 -> goodP S0 P -> goodP S0 Q -> alw md s S0 (cm_add a b P Q) goodP.
Proof.
  intros HS [G1 G2] [G3 G4]. unfold cm_add. stp (@alw_cdiv p Hp). stp (@alw_csquare p Hp).
  cbv zeta. stp (@alw_cmul p Hp). apply alw_ret. split; cbn [px py]; auto 10 with alw.
Qed.
Lemma alw_cm_into_edwards S0 P : okS s S0 -> goodP S0 P -> alw md s S0 (cm_into_edwards P) goodP.
Proof.
  intros HS [G1 G2]. unfold cm_into_edwards. stp (@alw_is_zero p Hp). stp (@alw_cdiv p Hp). stp (@alw_cdiv p Hp).
  apply alw_ret. split; auto.
Qed.
Lemma alw_windows_loop n : forall S0 dd a b bits base acc, okS s S0 -> Forall (good md s S0) bits -> goodP S0 acc ->
  alw md s S0 (windows_loop n dd a b bits base acc) goodP.
Proof.
  induction n as [|n IH]; intros S0 dd a b bits base acc HS Gb GP; cbn [windows_loop]; [now apply alw_ret|].
  destruct bits as [|b0 [|b1 [|b2 bits]]]; try exact I.
  inversion Gb as [|? ? B0 Gb1]; subst. inversion Gb1 as [|? ? B1 Gb2]; subst. inversion Gb2 as [|? ? B2 Gb3]; subst.
  clear Gb Gb1 Gb2. apply alw_lift. intros table _. eapply alw_use; [apply (alw_mux3 Hp); auto|].
  intros S1 r I1 Gr. liftP I1. destruct r as [|x [|y [|? ?]]]; try exact I.
  inversion Gr as [|? ? X0 Gr1]; subst. inversion Gr1 as [|? ? X1 Gr2]; subst.
  eapply alw_use; [apply alw_cm_add; auto; split; auto|]. intros S2 acc2 I2 G2. liftP I2. apply IH; auto.
Qed.
Lemma alw_ce_mul_const S0 l (J : JubJub p l) c bits : okS s S0 -> Forall (good md s S0) bits ->
  alw md s S0 (ce_mul_const J c bits) goodP.
Proof.
  intros HS Gb. unfold ce_mul_const. cbv zeta. destruct (x_is_zero _); [apply alw_ret; now apply goodP_const|].
  apply alw_lift. intros o _. apply alw_lift. intros mp _.
  eapply alw_use; [apply alw_windows_loop; auto using goodP_const|].
  - apply Forall_app. split; auto. apply Forall_forall. intros x Hx. apply repeat_spec in Hx. subst. auto with alw.
  - intros S1 acc I1 G. liftP I1. stp alw_cm_into_edwards. apply alw_ret. destruct G0. split; cbn [px py]; auto with alw.
Qed.
Lemma alw_exponents n : forall S0 a b M, okS s S0 -> goodP S0 M ->
  alw md s S0 (exponents_loop n a b M) (fun S1 l => Forall (goodP S1) l).
Proof.
  induction n as [|n IH]; intros S0 a b M HS G; cbn [exponents_loop]; [apply alw_ret; constructor|].
  stp alw_cm_double. eapply alw_use; [apply IH; auto|]. intros S2 r I2 Gr. liftP I2. apply alw_ret. auto.
Qed.
Lemma alw_acc_loop a b bits : forall S0 exps acc, okS s S0 -> Forall (good md s S0) bits -> Forall (goodP S0) exps ->
  goodP S0 acc -> alw md s S0 (acc_loop a b bits exps acc) goodP.
Proof.
  induction bits as [|bit bits IH]; intros S0 exps acc HS Gb Ge GP; cbn [acc_loop]; [now apply alw_ret|].
  destruct exps as [|e exps]; [exact I|]. inversion Gb; subst. inversion Ge; subst. clear Gb Ge.
  stp alw_cm_add. stp alw_cp_switch. apply IH; auto.
Qed.
Lemma alw_ce_mul_var S0 l (J : JubJub p l) P bits : okS s S0 -> goodP S0 P -> Forall (good md s S0) bits ->
  alw md s S0 (ce_mul_var J P bits) goodP.
Proof.
  intros HS GP Gb. unfold ce_mul_var. pose proof (goodP_const) as GC. destruct GP as [G1 G2].
  stp (@alw_is_zero p Hp). eapply alw_use; [apply alw_cp_switch; auto; split; auto|]. intros S2 bp I2 Gbp. liftP I2.
  stp alw_ce_into_montgomery. stp alw_exponents. cbv zeta.
  eapply alw_use; [apply alw_acc_loop; auto; split; cbn [px py]; auto with alw|]. intros S5 acc I5 Ga. liftP I5.
  eapply alw_use; [apply alw_cp_switch; auto; split; cbn [px py]; auto with alw|]. intros S6 acc' I6 Ga'. liftP I6.
  eapply alw_use; [apply alw_cm_into_edwards; auto|]. intros S7 r I7 [R1 R2]. apply alw_ret.
  split; cbn [px py]; apply good_neg; auto.
Qed.
Lemma alw_ce_mul S0 l (J : JubJub p l) P bits : okS s S0 -> goodP S0 P -> Forall (good md s S0) bits ->
  alw md s S0 (ce_mul J P bits) goodP.
Proof.
  intros HS GP Gb. unfold ce_mul. destruct (cp_as_const P) as [[x y]|]; [now apply alw_ce_mul_const|now apply alw_ce_mul_var].
Qed.

(** A fact about every result, whatever the back end does. *)
Fixpoint post {A} (m : prog p A) (Q : A -> Prop) : Prop :=
  match m with
  | Ret a => Q a
  | PPanic => True
  | Alloc _ k | AllocInput _ k => forall i, post (k i) Q
  | Enforce _ _ _ k => post k Q
  end.
Lemma alw_post {A} (m : prog p A) (P : Sem.st -> A -> Prop) (Q : A -> Prop) : forall S0, alw md s S0 m P -> post m Q ->
  alw md s S0 m (fun S1 a => P S1 a /\ Q a).
Proof.
  induction m as [a| |v k IH|v k IH|a b c k IH]; intros S0; cbn [alw post]; auto.
  - intros [H1 H2] H. split; auto.
  - intros [H1 H2] H. split; auto.
  - intros [H1 H2] H. split; auto.
Qed.
Lemma post_csquare_none a : cvalue a = None -> nonconst a -> post (csquare a) (fun r : CNum p => cvalue r = None).
Proof. intros Hv Hn. unfold csquare, cmul. unfold nonconst in Hn. rewrite Hn, Hv. cbn. auto. Qed.
Lemma cdiv_num_none (a r : CNum p) k : cvalue a = None -> cdiv_num a k = Ok r -> cvalue r = None.
Proof.
  intros Hv E. unfold cdiv_num in E. rewrite Hv in E. cbn [omapM rbind] in E.
  destruct (rmapM _ _); [|discriminate]. cbn in E. assert (r = mkC None a0) by congruence. now subst.
Qed.
Lemma post_cdiv_none (a b : CNum p) : cvalue a = None -> cvalue b = None -> post (cdiv a b) (fun r => cvalue r = None).
Proof.
  intros Ha Hb. unfold cdiv. destruct (as_const a); [destruct (cdiv_num b n) eqn:E; cbn; auto; eapply cdiv_num_none; [|eassumption]; auto|].
  destruct (as_const b); [destruct (cdiv_num a n) eqn:E; cbn; auto; eapply cdiv_num_none; [|eassumption]; auto|].
  rewrite Ha. cbn. auto.
Qed.

Lemma alw_check_y S0 sqrt a b u x : okS s S0 -> good md s S0 x -> (md = Setup -> cvalue x = None) ->
  alw md s S0 (check_and_get_y sqrt a b u x) (fun S1 r => good md s S1 (fst r) /\ good md s S1 (snd r)).
Proof.
  intros HS G Hn. unfold check_and_get_y. stp (@alw_csquare p Hp). stp (@alw_cmul p Hp).
  apply alw_lift. intros g Eg. assert (Gg : good md s S2 g) by (eapply (good_cdiv_num Hp); [auto| |exact Eg]; auto with alw).
  apply alw_lift. intros v Hv. apply omapM_some in Hv as [V1 V2].
  eapply alw_use; [apply (alw_calloc Hp)|].
  - intros E. apply V1. eapply honest_value; eauto.
  - intros E. apply V2. eapply cdiv_num_none; [|exact Eg]. cbn. rewrite (Hn E). now destruct (cvalue a1).
  - intros S3 y I3 Gy. liftP I3. stp (@alw_into_bits_strict p Hp). stp (@alw_nth p). stp (@alw_cb_assert_const p).
    stp (@alw_csquare p Hp). stp (@alw_is_zero p Hp). stp (@alw_is_zero p Hp). stp (@alw_assert_zero p).
    apply alw_ret. cbn. auto.
Qed.
Lemma mul_num_none (a : CNum p) k : cvalue a = None -> k <> 0 -> cvalue (cmul_num a k) = None.
Proof.
  intros Ha Hk. unfold cmul_num. destruct (nis_zero k) eqn:E; [apply nis_zero_eq in E; congruence|]. cbn. now rewrite Ha.
Qed.
Lemma ndiv_neq0 (a b r : F) : a <> 0 -> ndiv a b = Ok r -> r <> 0.
Proof.
  intros Ha E ->. destruct (num_eq_dec b 0) as [->|Hb]; [discriminate|]. rewrite ndiv_ok in E by auto.
  assert (E2 : a / b = 0) by congruence. apply Ha. transitivity (a / b * b); [field; auto|rewrite E2; ring].
Qed.
Lemma m1_neq0 : (- (1) : F) <> 0.
Proof. intros E. apply (n1_neq_n0 Hp). transitivity (- - (1) : F); [ring|]. rewrite E. ring. Qed.
Lemma alw_ce_from_scalar S0 sqrt l (J : JubJub p l) t : okS s S0 -> good md s S0 t ->
  (md = Setup -> nonconst t /\ ju J <> 0) ->
  alw md s S0 (ce_from_scalar sqrt J t) goodP.
Proof.
  intros HS G Hn. unfold ce_from_scalar. cbv zeta.
  assert (Gt : good md s S0 (cadd_num t n1)) by auto with alw.
  eapply alw_use with (P := fun S1 r => good md s S1 r /\ (md = Setup -> cvalue r = None)).
  { assert (D : md = Setup \/ md <> Setup) by (destruct md; auto; right; discriminate). destruct D as [Em|Em].
    - destruct (Hn Em) as [Nt _]. apply (nc_add_num _ _ n1 (proj1 G)) in Nt.
      eapply alw_mono; [apply alw_post; [apply (alw_csquare Hp); auto|]|].
      + apply post_csquare_none; auto. eapply setup_value; eauto.
      + cbn. intros S1 r I1 [A B]. split; auto.
    - eapply alw_mono; [apply (alw_csquare Hp); auto|]. cbn. intros ? ? ? A. split; auto. intros E. congruence. }
  intros S1 tt2 I1 [G1 N1]. liftP I1. apply alw_lift. intros m1a Em. assert (Nm : m1a <> 0) by (eapply ndiv_neq0; [apply m1_neq0|exact Em]).
  set (t2g1 := cmul_num tt2 (ju J)). set (x3 := cmul_num (cadd_num t2g1 n1) m1a).
  assert (G2 : good md s S1 t2g1) by (unfold t2g1; auto with alw).
  assert (G3 : good md s S1 x3) by (unfold x3; auto with alw).
  assert (N2 : md = Setup -> cvalue t2g1 = None) by (intros E; apply mul_num_none; [auto|apply Hn, E]).
  assert (N3 : md = Setup -> cvalue x3 = None).
  { intros E. apply mul_num_none; auto. cbn. now rewrite (N2 E). }
  clearbody t2g1 x3. eapply alw_use with (P := fun S1 r => good md s S1 r /\ (md = Setup -> cvalue r = None)).
  { assert (D : md = Setup \/ md <> Setup) by (destruct md; auto; right; discriminate). destruct D as [Em'|Em'].
    - eapply alw_mono; [apply alw_post; [apply (alw_cdiv Hp); auto|apply post_cdiv_none; auto]|]. cbn. intros ? ? ? [A B]. split; auto.
    - eapply alw_mono; [apply (alw_cdiv Hp); auto|]. cbn. intros ? ? ? A. split; auto. intros E. congruence. }
  intros S2 x2 I2 [G4 N4]. liftP I2.
  eapply alw_use; [apply alw_check_y; auto|]. intros S3 [v2 y2] I3 [G5 G6]. cbn [fst snd] in *. liftP I3.
  eapply alw_use; [apply alw_check_y; auto|]. intros S4 [v3 y3] I4 [G7 G8]. cbn [fst snd] in *. liftP I4.
  stp (@alw_switch p Hp). stp (@alw_switch p Hp).
  eapply alw_use; [apply alw_cm_into_edwards; auto; split; auto|]. intros S7 P I7 GP. liftP I7. apply alw_ce_cofactor; auto.
Qed.
Lemma alw_eddsa S0 sqrt l (P : PoseidonParams p) (J : JubJub p l) sg r a m : okS s S0 ->
  good md s S0 sg -> good md s S0 r -> good md s S0 a -> good md s S0 m ->
  (md = Setup -> nonconst r /\ nonconst a) ->
  alw md s S0 (c_eddsaposeidon_verify sqrt P J sg r a m) GOOD.
Proof.
  intros HS Gs Gr Ga Gm Hn. unfold c_eddsaposeidon_verify. apply alw_passert. intros _.
  eapply alw_use; [apply alw_ce_decompress; auto; intros E; apply Hn, E|]. intros S1 pa I1 GA. liftP I1.
  eapply alw_use; [apply alw_ce_decompress; auto; intros E; apply Hn, E|]. intros S2 pr I2 GR. liftP I2.
  apply alw_lift. intros salt _. eapply alw_use; [apply (alw_poseidon_with_salt Hp); auto|]. intros S3 h I3 Gh. liftP I3.
  stp (@alw_into_bits_strict p Hp). stp alw_ce_mul. stp (@alw_into_bits p Hp).
  eapply alw_use; [apply alw_ce_mul; auto using goodP_const|]. intros S7 sb I7 Gsb. liftP I7.
  eapply alw_use; [apply alw_ce_add; auto|]. intros S8 hr I8 [H1 H2]. liftP I8. destruct Gsb.
  apply (alw_is_zero Hp); auto with alw.
Qed.
End AlwEcc.

Section ShpEcc.
Context {p : positive} (Hp : prime (Zpos p)).
Notation F := (Num p).
Open Scope num_scope.
Context (st : bool).
Notation sm := (@sm p st).
Notation sml := (Forall2 sm).
Definition smP (P P' : CPoint p) : Prop := sm (px P) (px P') /\ sm (py P) (py P').

Lemma smP_const x y : smP (cp_from_const x y) (cp_from_const x y).
Proof. split; cbn; auto with shp. Qed.
Lemma smP_intro x y x' y' : sm x x' -> sm y y' -> smP (mkP x y) (mkP x' y').
Proof. split; auto. Qed.
Hint Resolve smP_const smP_intro : shp.
Ltac stp lem :=
  eapply shp_bind; [solve [eapply lem; eauto 20 with shp]|];
  let H' := fresh "Q" in intros ? ? H'; cbv beta in H'.
Lemma shp_cp_alloc v v' : (st = true -> ole v v') -> shp st smP (cp_alloc v) (cp_alloc v').
Proof.
  intros H. unfold cp_alloc. eapply shp_bind; [apply shp_calloc; intros E; auto with shp|]. intros x x' Hx.
  eapply shp_bind; [apply shp_calloc; intros E; auto with shp|]. intros y y' Hy. apply shp_ret. auto with shp.
Qed.
Lemma shp_cp_switch P P' b b' Q Q' : smP P P' -> sm b b' -> smP Q Q' -> shp st smP (cp_switch P b Q) (cp_switch P' b' Q').
Proof.
  intros [H1 H2] Hb [H3 H4]. unfold cp_switch.
  stp (@shp_switch p). stp (@shp_switch p). apply shp_ret. auto with shp.
Qed.
Lemma shp_ce_double dd P P' : smP P P' -> shp st smP (ce_double dd P) (ce_double dd P').
Proof.
  intros [H1 H2]. unfold ce_double. stp (@shp_cmul p). stp (@shp_csquare p). stp (@shp_csquare p).
  stp (@shp_cdiv p). stp (@shp_cdiv p). apply shp_ret. auto with shp.
Qed.
Lemma shp_ce_cofactor dd P P' : smP P P' -> shp st smP (ce_mul_by_cofactor dd P) (ce_mul_by_cofactor dd P').
Proof. intros. unfold ce_mul_by_cofactor. stp shp_ce_double. stp shp_ce_double. now apply shp_ce_double. Qed.
Lemma shp_ce_add dd P P' Q Q' : smP P P' -> smP Q Q' -> shp st smP (ce_add dd P Q) (ce_add dd P' Q').
Proof.
  intros [H1 H2] [H3 H4]. unfold ce_add. do 4 stp (@shp_cmul p). stp (@shp_cdiv p). stp (@shp_cdiv p).
  apply shp_ret. auto with shp.
Qed.
Lemma shp_ce_assert_in_curve dd P P' : smP P P' -> shp st eq (ce_assert_in_curve dd P) (ce_assert_in_curve dd P').
Proof.
  intros [H1 H2]. unfold ce_assert_in_curve. stp (@shp_csquare p). stp (@shp_csquare p).
  apply shp_enforce; apply (sm_same st); auto with shp.
Qed.
Lemma ole_cp_value P P' : smP P P' -> st = true -> ole (cp_get_value P) (cp_get_value P').
Proof.
  intros [[_ H1] [_ H2]] E w. unfold cp_get_value. specialize (H1 E). specialize (H2 E).
  destruct (cvalue (px P')) as [x|]; [|discriminate]. destruct (cvalue (py P')) as [y|]; [|discriminate].
  now rewrite (H1 _ eq_refl), (H2 _ eq_refl).
Qed.
Lemma shp_ce_assert_in_subgroup l dd P P' : smP P P' ->
  shp st eq (ce_assert_in_subgroup l dd P) (ce_assert_in_subgroup l dd P').
Proof.
  intros H. unfold ce_assert_in_subgroup. eapply shp_bind; [apply shp_omapM; now apply ole_cp_value|].
  intros v v' Hv. eapply shp_bind; [apply shp_cp_alloc; auto|]. intros Q Q' HQ.
  stp shp_ce_assert_in_curve. eapply shp_bind; [apply shp_ce_cofactor; eauto|]. intros R R' HR.
  destruct H as [H1 H2], HR as [H3 H4].
  stp (@shp_assert_zero p). apply shp_assert_zero; auto with shp.
Qed.
Lemma shp_ce_decompress sqrt l (J : JubJub p l) x x' : sm x x' ->
  shp st smP (ce_subgroup_decompress sqrt J x) (ce_subgroup_decompress sqrt J x').
Proof.
  intros H. unfold ce_subgroup_decompress. eapply shp_bind; [apply shp_omapM; apply H|].
  intros v v' Hv. eapply shp_bind; [apply shp_cp_alloc; auto|]. intros Q Q' HQ.
  stp shp_ce_assert_in_curve. eapply shp_bind; [apply shp_ce_cofactor; eauto|]. intros R R' [H3 H4].
  stp (@shp_assert_zero p). apply shp_ret. split; auto.
Qed.
Lemma shp_ce_into_montgomery P P' : smP P P' -> shp st smP (ce_into_montgomery P) (ce_into_montgomery P').
Proof.
  intros [H1 H2]. unfold ce_into_montgomery. stp (@shp_cdiv p). stp (@shp_cdiv p). apply shp_ret. auto with shp.
Qed.
Lemma shp_cm_double a b P P' : smP P P' -> shp st smP (cm_double a b P) (cm_double a b P').
Proof.
  intros [H1 H2]. unfold cm_double. stp (@shp_csquare p). stp (@shp_cdiv p). stp (@shp_csquare p). cbv zeta.
  stp (@shp_cmul p). apply shp_ret. auto 10 with shp.
Qed.
Lemma shp_cm_add a b P P' Q Q' : smP P P' -> smP Q Q' -> shp st smP (cm_add a b P Q) (cm_add a b P' Q').
Proof.
  intros [H1 H2] [H3 H4]. unfold cm_add. stp (@shp_cdiv p). stp (@shp_csquare p). cbv zeta.
  stp (@shp_cmul p). apply shp_ret. auto 10 with shp.
Qed.
Lemma shp_cm_into_edwards P P' : smP P P' -> shp st smP (cm_into_edwards P) (cm_into_edwards P').
Proof.
  intros [H1 H2]. unfold cm_into_edwards. stp (@shp_is_zero p). stp (@shp_cdiv p). stp (@shp_cdiv p).
  apply shp_ret. auto with shp.
Qed.
Lemma shp_windows_loop n : forall dd a b bits bits' base acc acc', sml bits bits' -> smP acc acc' ->
  shp st smP (windows_loop n dd a b bits base acc) (windows_loop n dd a b bits' base acc').
Proof.
  induction n as [|n IH]; intros dd a b bits bits' base acc acc' Hb Ha; cbn [windows_loop]; [now apply shp_ret|].
  destruct Hb as [|b0 b0' bits bits' B0 Hb]; [exact I|]. destruct Hb as [|b1 b1' bits bits' B1 Hb]; [exact I|].
  destruct Hb as [|b2 b2' bits bits' B2 Hb]; [exact I|].
  destruct (gen_table dd base) as [table|]; [|exact I]. cbn [plift pbind].
  eapply shp_bind; [apply shp_mux3; repeat constructor; auto; apply B0 || apply B1 || apply B2|]. intros r r' Hr.
  destruct Hr as [|x x' r r' X0 Hr]; [exact I|]. destruct Hr as [|y y' r r' X1 Hr]; [exact I|]. destruct Hr; [|exact I].
  stp shp_cm_add. apply IH; auto.
Qed.
Lemma sml_repeat_false n : sml (repeat (cbconst false) n) (repeat (cbconst false) n).
Proof. induction n; cbn; constructor; auto with shp. Qed.
Lemma shp_ce_mul_const l (J : JubJub p l) c bits bits' : sml bits bits' ->
  shp st smP (ce_mul_const J c bits) (ce_mul_const J c bits').
Proof.
  intros H. unfold ce_mul_const. cbv zeta. unfold CBool in *. rewrite !app_length, <- (sml_length st _ _ H).
  destruct (x_is_zero _); [apply shp_ret; auto with shp|].
  destruct (x_into_montgomery _) as [o|]; [|exact I]. cbn [plift pbind]. destruct o as [mp|]; [|exact I]. cbn [unwrap plift pbind].
  eapply shp_bind; [apply shp_windows_loop; auto with shp; apply Forall2_app; auto using sml_repeat_false|].
  intros acc acc' Ha. eapply shp_bind; [apply shp_cm_into_edwards; eauto|]. intros r r' [H1 H2]. apply shp_ret. auto with shp.
Qed.
Lemma shp_exponents n : forall a b M M', smP M M' -> shp st (Forall2 smP) (exponents_loop n a b M) (exponents_loop n a b M').
Proof.
  induction n as [|n IH]; intros a b M M' H; cbn [exponents_loop]; [apply shp_ret; constructor|].
  stp shp_cm_double. eapply shp_bind; [apply IH; eauto|]. intros r r' Hr. apply shp_ret. auto.
Qed.
Lemma shp_acc_loop a b bits bits' : sml bits bits' -> forall exps exps' acc acc', Forall2 smP exps exps' -> smP acc acc' ->
  shp st smP (acc_loop a b bits exps acc) (acc_loop a b bits' exps' acc').
Proof.
  induction 1 as [|b0 b0' bits bits' B0 Hb IH]; intros exps exps' acc acc' He Ha; cbn [acc_loop]; [now apply shp_ret|].
  destruct He as [|e e' exps exps' H1 He]; [exact I|]. stp shp_cm_add. stp shp_cp_switch. apply IH; auto.
Qed.
Lemma shp_ce_mul_var l (J : JubJub p l) P P' bits bits' : smP P P' -> sml bits bits' ->
  shp st smP (ce_mul_var J P bits) (ce_mul_var J P' bits').
Proof.
  intros HP H. unfold ce_mul_var. unfold CBool in *. rewrite <- (sml_length st _ _ H). pose proof HP as [H1 H2].
  stp (@shp_is_zero p). stp shp_cp_switch. stp shp_ce_into_montgomery. stp shp_exponents. cbv zeta.
  eapply shp_bind; [apply shp_acc_loop; eauto with shp|]. intros acc acc' Ha. stp shp_cp_switch.
  eapply shp_bind; [apply shp_cm_into_edwards; eauto|]. intros r r' [R1 R2]. apply shp_ret. auto with shp.
Qed.
Lemma smP_as_const P P' : smP P P' -> cp_as_const P = cp_as_const P'.
Proof. intros [H1 H2]. unfold cp_as_const. now rewrite (sm_as_const st _ _ H1), (sm_as_const st _ _ H2). Qed.
Lemma shp_ce_mul l (J : JubJub p l) P P' bits bits' : smP P P' -> sml bits bits' ->
  shp st smP (ce_mul J P bits) (ce_mul J P' bits').
Proof.
  intros HP H. unfold ce_mul. rewrite <- (smP_as_const _ _ HP).
  destruct (cp_as_const P) as [[x y]|]; [now apply shp_ce_mul_const|now apply shp_ce_mul_var].
Qed.
Lemma shp_check_y sqrt a b u x x' : sm x x' -> (st = true -> (2 <= num_bits p)%nat) ->
  shp st (fun r r' => sm (fst r) (fst r') /\ sm (snd r) (snd r')) (check_and_get_y sqrt a b u x) (check_and_get_y sqrt a b u x').
Proof.
  intros H Hn. unfold check_and_get_y. stp (@shp_csquare p). stp (@shp_cmul p).
  eapply shp_bind; [apply shp_lift; intros r Hr; eapply (cdiv_num_sm st); [|exact Hr]; auto with shp|]. intros g g' Hg.
  eapply shp_bind; [apply shp_omapM; apply Hg|]. intros v v' Hv.
  eapply shp_bind; [apply shp_calloc; auto|]. intros y y' Hy.
  eapply shp_bind; [apply shp_into_bits_strict; eauto|]. intros bits bits' Hb.
  stp (@shp_nth p). stp (@shp_cb_assert_const p). stp (@shp_csquare p). stp (@shp_is_zero p). stp (@shp_is_zero p).
  stp (@shp_assert_zero p). apply shp_ret. cbn. auto.
Qed.
Lemma shp_ce_from_scalar sqrt l (J : JubJub p l) t t' : sm t t' -> (st = true -> (2 <= num_bits p)%nat) ->
  shp st smP (ce_from_scalar sqrt J t) (ce_from_scalar sqrt J t').
Proof.
  intros H Hn. unfold ce_from_scalar. cbv zeta. stp (@shp_csquare p).
  destruct (ndiv _ _) as [m1a|]; [|exact I]. cbn [plift pbind]. stp (@shp_cdiv p).
  eapply shp_bind; [apply shp_check_y; eauto|]. intros [v2 y2] [v2' y2'] [H1 H2]. cbn [fst snd] in *.
  eapply shp_bind; [apply shp_check_y; eauto 10 with shp|]. intros [v3 y3] [v3' y3'] [H3 H4]. cbn [fst snd] in *.
  stp (@shp_switch p). stp (@shp_switch p). stp shp_cm_into_edwards. now apply shp_ce_cofactor.
Qed.
Lemma shp_eddsa sqrt l (P : PoseidonParams p) (J : JubJub p l) sg r a m sg' r' a' m' :
  sm sg sg' -> sm r r' -> sm a a' -> sm m m' -> (st = true -> (2 <= num_bits p)%nat) ->
  shp st sm (c_eddsaposeidon_verify sqrt P J sg r a m) (c_eddsaposeidon_verify sqrt P J sg' r' a' m').
Proof.
  intros Hs Hr Ha Hm Hn. unfold c_eddsaposeidon_verify. destruct (Nat.ltb _ _) eqn:E; [|exact I]. cbn [passert pbind].
  apply Nat.ltb_lt in E. stp shp_ce_decompress. stp shp_ce_decompress.
  destruct (from_seed _) as [salt|]; [|exact I]. cbn [plift pbind].
  eapply shp_bind; [apply shp_poseidon_with_salt; repeat constructor; try apply Hr; try apply Ha; try apply Hm|]. intros h h' Hh.
  eapply shp_bind; [apply shp_into_bits_strict; eauto|]. intros hb hb' Hhb. stp shp_ce_mul.
  eapply shp_bind; [apply shp_into_bits; [eauto|lia]|]. intros sb sb' Hsb. cbv zeta. stp shp_ce_mul.
  eapply shp_bind; [apply shp_ce_add; eauto|]. intros hr hr' [X1 X2].
  apply shp_is_zero. apply sm_sub; auto. match goal with H : smP ?a ?b |- sm (px ?a) (px ?b) => apply H end.
Qed.
End ShpEcc.
