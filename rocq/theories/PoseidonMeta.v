(** The Poseidon gadgets keep cached values consistent (Always.v) and have the
    same shape in setup and proving runs (Shape.v). *)

From Verif Require Export PoseidonSpec Shape.

Section AlwPoseidon.
Context {p : positive} (Hp : prime (Zpos p)).
Notation F := (Num p).
Open Scope num_scope.
Context (md : mode) (s : Index -> F).
Implicit Types (P : PoseidonParams p).
Notation GOOD := (fun S1 r => good md s S1 r).
Notation GOODS := (fun S1 r => Forall (good md s S1) r).

Lemma alw_sigma S0 a : okS s S0 -> good md s S0 a -> alw md s S0 (c_sigma a) GOOD.
Proof.
  intros HS G. unfold c_sigma. alw_step (@alw_cmul p Hp). alw_step (@alw_cmul p Hp).
  apply (alw_cmul Hp); auto.
Qed.
Lemma alw_round S0 P i st : okS s S0 -> Forall (good md s S0) st -> alw md s S0 (c_round P i st) GOODS.
Proof.
  intros HS G. unfold c_round. apply alw_lift. intros c _. cbv zeta. pose proof (good_ark md s S0 st c HS G) as Ga.
  eapply alw_use with (P := GOODS).
  - destruct (c_full_round P i).
    + apply (alw_pmapM md s _ GOOD (fun S => okS s S /\ Forall (good md s S) (c_ark st c))).
      * intros; eapply good_incl; eauto.
      * intros S1 S2 I2 [H1 H2]. lift_good I2. auto.
      * intros S1 a Ha [H1 H2]. apply alw_sigma; auto. rewrite Forall_forall in H2. auto.
      * auto.
    + destruct (c_ark st c) as [|x xs]; [exact I|]. inversion Ga; subst. alw_step alw_sigma. apply alw_ret. auto.
  - intros S1 st1 I1 G1. lift_good I1. apply alw_lift0. intros r Er. eapply c_mix_good; eauto.
Qed.
Lemma alw_rounds P is : forall S0 st, okS s S0 -> Forall (good md s S0) st -> alw md s S0 (c_rounds P is st) GOODS.
Proof.
  induction is as [|i is IH]; intros S0 st HS G; cbn [c_rounds]; [now apply alw_ret|]. alw_step alw_round. auto.
Qed.
Lemma alw_nth S0 (l : list (CNum p)) i : Forall (good md s S0) l -> alw md s S0 (plift (unwrap (nth_error l i))) GOOD.
Proof.
  intros G. apply alw_lift0. intros a E. destruct (nth_error l i) eqn:En; [|discriminate]. cbn in E.
  assert (c = a) by congruence. subst. eapply nth_error_Forall; eauto.
Qed.
Lemma alw_poseidon S0 P ins : okS s S0 -> Forall (good md s S0) ins -> alw md s S0 (c_poseidon P ins) GOOD.
Proof.
  intros HS G. unfold c_poseidon. apply alw_passert. intros _. apply alw_passert. intros _.
  eapply alw_use; [apply alw_rounds; auto; apply Forall_app; split; auto; apply Forall_repeat; auto with alw|].
  intros S1 st I1 G1. apply alw_nth. auto.
Qed.
Lemma alw_poseidon_with_salt S0 P ins salt : okS s S0 -> Forall (good md s S0) ins ->
  alw md s S0 (c_poseidon_with_salt P ins salt) GOOD.
Proof.
  intros HS G. unfold c_poseidon_with_salt. apply alw_passert. intros _. apply alw_passert. intros _.
  apply alw_poseidon; auto. apply Forall_app. split; auto with alw.
Qed.
Lemma alw_merkle_proof P proof : forall S0 root, okS s S0 -> good md s S0 root ->
  Forall (fun bs => good md s S0 (fst bs) /\ good md s S0 (snd bs)) proof ->
  alw md s S0 (c_merkle_proof_root P root proof) GOOD.
Proof.
  induction proof as [|[b c] proof IH]; intros S0 root HS Gr Gp; cbn [c_merkle_proof_root]; [now apply alw_ret|].
  inversion Gp as [|? ? [Gb Gc] Gp']; subst. cbn [fst snd] in *.
  eapply alw_use; [apply (alw_switch Hp); eauto|]. intros S1 f I1 Gf. cbv zeta.
  assert (Gp1 : Forall (fun bs => good md s S1 (fst bs) /\ good md s S1 (snd bs)) proof).
  { eapply Forall_impl; [|exact Gp']. cbn. intros x [X Y]. split; eapply good_incl; eauto. }
  lift_good I1. eapply alw_use; [apply alw_poseidon; auto with alw|]. intros S2 h I2 Gh.
  assert (Gp2 : Forall (fun bs => good md s S2 (fst bs) /\ good md s S2 (snd bs)) proof).
  { eapply Forall_impl; [|exact Gp1]. cbn. intros x [X Y]. split; eapply good_incl; eauto. }
  lift_good I2. auto.
Qed.
Lemma Forall_combine {A B} (T : A -> Prop) (T' : B -> Prop) l l' : Forall T l -> Forall T' l' ->
  Forall (fun ab => T (fst ab) /\ T' (snd ab)) (combine l l').
Proof. intros H. revert l'. induction H; intros l' H'; cbn; auto. destruct H'; constructor; auto. Qed.
Lemma alw_merkle_proof_root S0 P leaf sib path : okS s S0 -> good md s S0 leaf ->
  Forall (good md s S0) sib -> Forall (good md s S0) path ->
  alw md s S0 (c_poseidon_merkle_proof_root P leaf sib path) GOOD.
Proof. intros. apply alw_merkle_proof; auto. now apply Forall_combine. Qed.
Lemma alw_tree_level P is : forall S0 st, okS s S0 -> Forall (good md s S0) st -> alw md s S0 (c_tree_level P is st) GOODS.
Proof.
  induction is as [|i is IH]; intros S0 st HS G; cbn [c_tree_level]; [now apply alw_ret|].
  alw_step alw_nth. alw_step alw_nth. eapply alw_use; [apply alw_poseidon; auto|]. intros S3 h I1 Gh. lift_good I1.
  apply alw_passert. intros _. apply IH; auto. now apply Forall_set_nth.
Qed.
Lemma alw_tree_levels P total js : forall S0 st, okS s S0 -> Forall (good md s S0) st ->
  alw md s S0 (c_tree_levels P total js st) GOODS.
Proof.
  induction js as [|i js IH]; intros S0 st HS G; cbn [c_tree_levels]; [now apply alw_ret|]. alw_step alw_tree_level. auto.
Qed.
Lemma alw_tree_root S0 P leaf : okS s S0 -> Forall (good md s S0) leaf ->
  alw md s S0 (c_poseidon_merkle_tree_root P leaf) GOOD.
Proof.
  intros HS G. unfold c_poseidon_merkle_tree_root. apply alw_passert. intros _. cbv zeta.
  eapply alw_use; [apply alw_tree_levels; auto; apply Forall_app; split; auto; apply Forall_repeat; auto with alw|].
  intros S1 st I1 G1. now apply alw_nth.
Qed.
End AlwPoseidon.

Section ShpPoseidon.
Context {p : positive} (Hp : prime (Zpos p)).
Notation F := (Num p).
Context (st : bool).
Implicit Types (P : PoseidonParams p).
Notation sm := (@sm p st).
Notation sml := (Forall2 sm).

Lemma shp_sigma x x' : sm x x' -> shp st sm (c_sigma x) (c_sigma x').
Proof.
  intros H. unfold c_sigma. shp_step (@shp_cmul p). shp_step (@shp_cmul p). now apply shp_cmul.
Qed.
Lemma sml_ark l l' c : sml l l' -> sml (c_ark l c) (c_ark l' c).
Proof. unfold c_ark. induction 1; cbn; constructor; auto with shp. Qed.
Lemma c_mix_row_sm row l l' : sml l l' -> forall a a', sm a a' ->
  match c_mix_row row l a, c_mix_row row l' a' with
  | Ok r, Ok r' => sm r r' | Panic, Panic => True | _, _ => False end.
Proof.
  intros H. revert row. induction H as [|x x' l l' Hx H IH]; intros [|k row] a a' Ha; cbn [c_mix_row]; auto.
  apply IH. auto with shp.
Qed.
Lemma c_mix_rows_sm n : forall m l l', sml l l' ->
  match c_mix_rows n m l, c_mix_rows n m l' with
  | Ok r, Ok r' => sml r r' | Panic, Panic => True | _, _ => False end.
Proof.
  induction n as [|n IH]; intros [|row m] l l' H; cbn [c_mix_rows]; auto.
  pose proof (c_mix_row_sm row l l' H czero czero (sm_const _ _)) as K.
  destruct (c_mix_row row l czero), (c_mix_row row l' czero); try contradiction; cbn [rbind]; auto.
  specialize (IH m l l' H). destruct (c_mix_rows n m l), (c_mix_rows n m l'); try contradiction; cbn [rbind]; auto.
Qed.
Lemma shp_mix m l l' : sml l l' -> @shp p _ _ st sml (plift (c_mix m l)) (plift (c_mix m l')).
Proof.
  intros H. assert (K : match c_mix m l, c_mix m l' with
    | Ok r, Ok r' => sml r r' | Panic, Panic => True | _, _ => False end).
  { unfold c_mix. destruct H as [|x x' l l' Hx H]; [exact I|]. cbn [length].
    rewrite <- (sml_length st l l' H). apply c_mix_rows_sm. auto. }
  destruct (c_mix m l), (c_mix m l'); try contradiction; cbn; auto.
Qed.
Lemma shp_round P i l l' : sml l l' -> shp st sml (c_round P i l) (c_round P i l').
Proof.
  intros H. unfold c_round. destruct (nth_error (ppc P) i) as [c|]; [|exact I]. cbn [unwrap plift pbind]. cbv zeta.
  pose proof (sml_ark _ _ c H) as Ha. eapply shp_bind with (R := sml).
  - destruct (c_full_round P i).
    + eapply shp_pmapM; [exact Ha|]. intros. now apply shp_sigma.
    + destruct Ha as [|x x' m m' Hx Ha]; [exact I|]. shp_step shp_sigma. apply shp_ret. auto.
  - intros. now apply shp_mix.
Qed.
Lemma shp_rounds P is : forall l l', sml l l' -> shp st sml (c_rounds P is l) (c_rounds P is l').
Proof.
  induction is as [|i is IH]; intros l l' H; cbn [c_rounds]; [now apply shp_ret|]. shp_step shp_round. auto.
Qed.
Lemma sml_repeat n : sml (repeat czero n) (repeat czero n).
Proof. induction n; cbn; constructor; auto with shp. Qed.
Lemma shp_poseidon P l l' : sml l l' -> shp st sm (c_poseidon P l) (c_poseidon P l').
Proof.
  intros H. unfold c_poseidon. rewrite <- (sml_length st l l' H).
  destruct Nat.leb; [|exact I]. destruct Nat.ltb; [|exact I]. cbn [passert pbind].
  eapply shp_bind; [apply shp_rounds; apply Forall2_app; auto using sml_repeat|]. intros. now apply shp_nth.
Qed.
Lemma shp_poseidon_with_salt P l l' salt : sml l l' ->
  shp st sm (c_poseidon_with_salt P l salt) (c_poseidon_with_salt P l' salt).
Proof.
  intros H. unfold c_poseidon_with_salt. rewrite <- (sml_length st l l' H).
  destruct Nat.ltb; [|exact I]. destruct Nat.ltb; [|exact I]. cbn [passert pbind].
  apply shp_poseidon. apply Forall2_app; auto with shp.
Qed.
Lemma shp_merkle_proof P proof proof' : Forall2 (fun a b => sm (fst a) (fst b) /\ sm (snd a) (snd b)) proof proof' ->
  forall root root', sm root root' -> shp st sm (c_merkle_proof_root P root proof) (c_merkle_proof_root P root' proof').
Proof.
  induction 1 as [|[b c] [b' c'] proof proof' [Hb Hc] H IH]; intros root root' Hr; cbn [c_merkle_proof_root]; [now apply shp_ret|].
  cbn [fst snd] in *. eapply shp_bind; [apply (shp_switch st c b root c' b' root'); auto|]. intros f f' Hf. cbv zeta.
  eapply shp_bind; [apply shp_poseidon; auto 10 with shp|]. auto.
Qed.
Lemma Forall2_combine {A B A' B'} (R : A -> A' -> Prop) (T : B -> B' -> Prop) l l' : Forall2 R l l' ->
  forall m m', Forall2 T m m' -> Forall2 (fun a b => R (fst a) (fst b) /\ T (snd a) (snd b)) (combine l m) (combine l' m').
Proof. induction 1; intros m m' H'; cbn; auto. destruct H'; constructor; auto. Qed.
Lemma shp_merkle_proof_root P leaf sib path leaf' sib' path' : sm leaf leaf' -> sml sib sib' -> sml path path' ->
  shp st sm (c_poseidon_merkle_proof_root P leaf sib path) (c_poseidon_merkle_proof_root P leaf' sib' path').
Proof. intros. apply shp_merkle_proof; auto. now apply Forall2_combine. Qed.
Lemma sml_set_nth i x x' l l' : sm x x' -> sml l l' -> sml (set_nth i x l) (set_nth i x' l').
Proof. intros Hx H. revert i. induction H; intros [|i]; cbn; auto. Qed.
Lemma shp_tree_level P is : forall l l', sml l l' -> shp st sml (c_tree_level P is l) (c_tree_level P is l').
Proof.
  induction is as [|i is IH]; intros l l' H; cbn [c_tree_level]; [now apply shp_ret|].
  shp_step (@shp_nth p). shp_step (@shp_nth p). eapply shp_bind; [apply shp_poseidon; auto|]. intros h h' Hh.
  rewrite <- (sml_length st l l' H). destruct Nat.ltb; [|exact I]. cbn [passert pbind]. apply IH. now apply sml_set_nth.
Qed.
Lemma shp_tree_levels P total js : forall l l', sml l l' -> shp st sml (c_tree_levels P total js l) (c_tree_levels P total js l').
Proof.
  induction js as [|i js IH]; intros l l' H; cbn [c_tree_levels]; [now apply shp_ret|]. shp_step shp_tree_level. auto.
Qed.
Lemma shp_tree_root P l l' : sml l l' -> shp st sm (c_poseidon_merkle_tree_root P l) (c_poseidon_merkle_tree_root P l').
Proof.
  intros H. unfold c_poseidon_merkle_tree_root. rewrite <- (sml_length st l l' H).
  destruct Nat.ltb; [|exact I]. cbn [passert pbind]. cbv zeta.
  eapply shp_bind; [apply shp_tree_levels; apply Forall2_app; auto using sml_repeat|]. intros. now apply shp_nth.
Qed.
End ShpPoseidon.
