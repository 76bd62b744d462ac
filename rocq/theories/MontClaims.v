(** Claims about the gadgets on Montgomery points (circuit/ecc.rs:86-90, 251-283). *)

From Verif Require Export CEccClaims.
From Coq Require Import Lia.
Open Scope num_scope.

Lemma cpm_ext {p} U (P : CPoint p) s s' : Forall (owned U) (coords P) -> (forall i, In i U -> s' i = s i) -> cpm s' P = cpm s P.
Proof.
  unfold coords. rewrite !Forall_cons_iff. intros [A [B _]] E. unfold cpm. now rewrite (ceval_ext_owned U _ s s' A E), (ceval_ext_owned U _ s s' B E).
Qed.
Lemma mrel_native {p l} (J : JubJub p l) P M : jubjub_ok J -> on_curve (jd J) P -> mrel (ja J) (jb J) P M ->
  e_into_montgomery P = Ok (Some M) /\ on_mont (ja J) (jb J) M.
Proof.
  intros K C R. pose proof (j_p _ K) as Hp. pose proof (j_m1 _ K) as Hm1. pose proof (j_d _ K) as Hd. pose proof (j_mont _ K) as HM.
  destruct (e_into_montgomery_ok Hp _ _ _ Hm1 Hd HM P C) as [_ H].
  destruct (H (mrel_onc Hp _ _ _ Hm1 Hd HM P M C R)) as [M' [E R']].
  split; [|apply R]. rewrite E. do 2 f_equal. apply (mrel_inj Hp _ _ _ Hm1 Hd HM P); auto.
Qed.
Lemma affine_native {p l} (J : JubJub p l) M P : jubjub_ok J -> on_mont (ja J) (jb J) M -> m_into_affine M = Ok P ->
  on_curve (jd J) P /\ mrel (ja J) (jb J) P M.
Proof.
  intros K C E. pose proof (j_p _ K) as Hp. pose proof (j_m1 _ K) as Hm1. pose proof (j_d _ K) as Hd. pose proof (j_mont _ K) as HM.
  rewrite (m_into_affine_ok Hp _ _ _ Hm1 Hd HM M C) in E. injection E as <-.
  destruct (unmont_ok Hp _ _ _ Hm1 Hd HM M C) as [A1 [_ A2]]. auto.
Qed.

(* C79 *)
Lemma claim_C79_into_montgomery : forall (p l : positive) (J : JubJub p l) (U : list Index) (P : CPoint p), jubjub_ok J ->
  In I0 U -> Forall (owned U) (coords P) -> Forall (fun c => as_const c = None) (coords P) ->
  let m := ce_into_montgomery P in
  let E s M := e_into_montgomery (cpe s P) = Ok (Some (cpm s M)) /\ on_mont (ja J) (jb J) (cpm s M) in
  sound_for U m (fun s M => on_curve (jd J) (cpe s P) /\ ceval s (px P) <> 0 -> E s M) /\
  complete_for U m (fun s => Forall (valued s) (coords P) /\ on_curve (jd J) (cpe s P) /\ ceval s (px P) <> 0)
    (fun s M => Forall (valued s) (coords M) /\ E s M) /\
  (Forall blank (coords P) -> synth_for U m (fun k n M => Forall blank (coords M) /\ k = 2%nat /\ n = 2%nat)).
Proof.
  intros p l J U P K H0 Ho Hn m E. pose proof (j_p _ K) as Hp. pose proof (j_m1 _ K) as Hm1. pose proof (j_d _ K) as Hd.
  apply wp_gadgetP; auto.
  - intros s s' X. rewrite (cpe_ext U P s s') by auto. unfold coords in Ho. rewrite !Forall_cons_iff in Ho.
    now rewrite (ceval_ext_owned U (px P) s s') by tauto.
  - intros md s HS GP HP. apply good_coords in GP. unfold coords in Hn. rewrite !Forall_cons_iff in Hn.
    eapply wp_mono; [apply (wp_ce_into_montgomery Hp _ _ _ Hm1 Hd (j_mont _ K) md s (mkst U 0) P); auto; split; tauto|]. cbv beta.
    intros S1 M _ [GM [EM [_ B]]]. split; [now apply good_coords|]. split.
    + intros Hm. apply (mrel_native J); auto. apply (HP Hm).
    + intros k Hk. exact (bump_count U S1 2 2 B k Hk).
Qed.
Lemma claim_C79_into_edwards : forall (p l : positive) (J : JubJub p l) (U : list Index) (M : CPoint p), jubjub_ok J ->
  In I0 U -> Forall (owned U) (coords M) -> Forall (fun c => as_const c = None) (coords M) ->
  let m := cm_into_edwards M in
  let E s P := m_into_affine (cpm s M) = Ok (cpe s P) /\ on_curve (jd J) (cpe s P) in
  sound_for U m (fun s P => on_mont (ja J) (jb J) (cpm s M) -> E s P) /\
  complete_for U m (fun s => Forall (valued s) (coords M) /\ on_mont (ja J) (jb J) (cpm s M))
    (fun s P => Forall (valued s) (coords P) /\ E s P) /\
  (Forall blank (coords M) -> synth_for U m (fun k n P => Forall blank (coords P) /\ k = 5%nat /\ n = 5%nat)).
Proof.
  intros p l J U M K H0 Ho Hn m E. pose proof (j_p _ K) as Hp. pose proof (j_m1 _ K) as Hm1. pose proof (j_d _ K) as Hd.
  apply wp_gadgetP; auto.
  - intros s s' X. now rewrite (cpm_ext U M s s') by auto.
  - intros md s HS GM HM. apply good_coords in GM. unfold coords in Hn. rewrite !Forall_cons_iff in Hn.
    eapply wp_mono; [apply (wp_cm_into_edwards Hp _ _ _ Hm1 Hd (j_mont _ K) md s (mkst U 0) M); auto; split; tauto|]. cbv beta.
    intros S1 P _ [GP [EP [_ [_ B]]]]. split; [now apply good_coords|]. split.
    + intros Hm. unfold E. rewrite (EP Hm), (m_into_affine_ok Hp _ _ _ Hm1 Hd (j_mont _ K) _ (HM Hm)). split; auto.
      apply (unmont_ok Hp _ _ _ Hm1 Hd (j_mont _ K) _ (HM Hm)).
    + intros k Hk. exact (bump_count U S1 5 5 B k Hk).
Qed.
(** [P] and [Q] are the Edwards forms of the points added. *)
Lemma claim_C79_add : forall (p l : positive) (J : JubJub p l) (U : list Index) (M N : CPoint p), jubjub_ok J ->
  In I0 U -> Forall (owned U) (coords M ++ coords N) ->
  as_const (csub (px N) (px M)) = None -> as_const (csub (py N) (py M)) = None ->
  let m := cm_add (ja J) (jb J) M N in
  let Pre s := on_mont (ja J) (jb J) (cpm s M) /\ on_mont (ja J) (jb J) (cpm s N) /\
    ceval s (px M) <> ceval s (px N) /\ ceval s (px N) <> 0 in
  let E s R := on_mont (ja J) (jb J) (cpm s R) /\ exists P Q, m_into_affine (cpm s M) = Ok P /\ m_into_affine (cpm s N) = Ok Q /\
    e_into_montgomery (eadd (jd J) P Q) = Ok (Some (cpm s R)) /\ m_into_affine (cpm s R) = Ok (eadd (jd J) P Q) in
  sound_for U m (fun s R => Pre s -> E s R) /\
  complete_for U m (fun s => Forall (valued s) (coords M ++ coords N) /\ Pre s) (fun s R => Forall (valued s) (coords R) /\ E s R) /\
  (Forall blank (coords M ++ coords N) -> synth_for U m (fun k n R => Forall blank (coords R) /\ k = 3%nat /\ n = 3%nat)).
Proof.
  intros p l J U M N K H0 Ho Nx Ny m Pre E. pose proof (j_p _ K) as Hp. pose proof (j_m1 _ K) as Hm1. pose proof (j_d _ K) as Hd. pose proof (j_mont _ K) as HM.
  apply wp_gadgetP; auto.
  - apply Forall_app in Ho. destruct Ho as [O1 O2]. intros s s' X. unfold Pre.
    rewrite (cpm_ext U M s s'), (cpm_ext U N s s') by auto. unfold coords in O1, O2. rewrite !Forall_cons_iff in O1, O2.
    now rewrite (ceval_ext_owned U (px M) s s'), (ceval_ext_owned U (px N) s s') by tauto.
  - intros md s HS G HP. apply Forall_app in G. destruct G as [GM GN]. apply good_coords in GM, GN.
    eapply wp_mono; [apply (wp_cm_add_gen Hp _ _ _ Hm1 Hd HM md s (mkst U 0) M N); auto|].
    { rewrite Nx. intros X; discriminate X. }
    { intros ->. apply (HP ltac:(discriminate)). }
    cbv beta. intros S1 R _ [GR [ER [_ [_ B]]]]. split; [now apply good_coords|]. split.
    + intros Hm. destruct (HP Hm) as [C1 [C2 [D Z]]]. specialize (ER Hm D).
      pose proof (m_into_affine_ok Hp _ _ _ Hm1 Hd HM _ C1) as E1. pose proof (m_into_affine_ok Hp _ _ _ Hm1 Hd HM _ C2) as E2.
      destruct (affine_native J _ _ K C1 E1) as [P1 R1]. destruct (affine_native J _ _ K C2 E2) as [P2 R2].
      pose proof (chord_ok Hp _ _ _ Hm1 Hd HM _ _ _ _ P1 P2 R1 R2 Z D) as R3. rewrite <- ER in R3.
      assert (P3 : on_curve (jd J) (eadd (jd J) (unmont (cpm s M)) (unmont (cpm s N)))) by (apply (onc_add Hp _ Hm1 Hd); auto).
      destruct (mrel_native J _ _ K P3 R3) as [N1 N2]. split; auto. exists (unmont (cpm s M)), (unmont (cpm s N)).
      repeat split; auto. rewrite (m_into_affine_ok Hp _ _ _ Hm1 Hd HM _ N2). f_equal. apply (unmont_mrel Hp _ _ _ Hm1 Hd HM); auto.
    + intros k Hk. exact (bump_count U S1 3 3 (B Nx) k Hk).
Qed.
Lemma claim_C79_double : forall (p l : positive) (J : JubJub p l) (U : list Index) (M : CPoint p), jubjub_ok J ->
  In I0 U -> Forall (owned U) (coords M) -> Forall (fun c => as_const c = None) (coords M) ->
  let m := cm_double (ja J) (jb J) M in
  let Pre s := on_mont (ja J) (jb J) (cpm s M) /\ ceval s (px M) <> 0 in
  let E s R := on_mont (ja J) (jb J) (cpm s R) /\ exists P, m_into_affine (cpm s M) = Ok P /\
    e_into_montgomery (eadd (jd J) P P) = Ok (Some (cpm s R)) /\ m_into_affine (cpm s R) = Ok (eadd (jd J) P P) in
  sound_for U m (fun s R => Pre s -> E s R) /\
  complete_for U m (fun s => Forall (valued s) (coords M) /\ Pre s) (fun s R => Forall (valued s) (coords R) /\ E s R) /\
  (Forall blank (coords M) -> synth_for U m (fun k n R => Forall blank (coords R) /\ k = 4%nat /\ n = 4%nat)).
Proof.
  intros p l J U M K H0 Ho Hn m Pre E. pose proof (j_p _ K) as Hp. pose proof (j_m1 _ K) as Hm1. pose proof (j_d _ K) as Hd. pose proof (j_mont _ K) as HM.
  assert (V0 : forall s, Pre s -> my (cpm s M) <> 0).
  { intros s [C D] X. apply D. exact (proj1 (mont_v0 Hp _ _ _ Hm1 Hd HM (cpm s M) C) X). }
  apply wp_gadgetP; auto.
  - intros s s' X. unfold Pre. rewrite (cpm_ext U M s s') by auto. unfold coords in Ho. rewrite !Forall_cons_iff in Ho.
    now rewrite (ceval_ext_owned U (px M) s s') by tauto.
  - intros md s HS GM HP. apply good_coords in GM. unfold coords in Hn. rewrite !Forall_cons_iff in Hn.
    eapply wp_mono; [apply (wp_cm_double Hp _ _ _ Hm1 Hd HM md s (mkst U 0) M); auto; [split; tauto|]|].
    { intros ->. apply V0, HP. discriminate. }
    cbv beta. intros S1 R _ [GR [ER [_ B]]]. split; [now apply good_coords|]. split.
    + intros Hm. specialize (ER Hm (V0 _ (HP Hm))). destruct (HP Hm) as [C1 Z].
      pose proof (m_into_affine_ok Hp _ _ _ Hm1 Hd HM _ C1) as E1.
      destruct (affine_native J _ _ K C1 E1) as [P1 R1].
      pose proof (tangent_ok Hp _ _ _ Hm1 Hd HM _ _ P1 R1 Z) as R3. rewrite <- ER in R3.
      assert (P3 : on_curve (jd J) (eadd (jd J) (unmont (cpm s M)) (unmont (cpm s M)))) by (apply (onc_add Hp _ Hm1 Hd); auto).
      destruct (mrel_native J _ _ K P3 R3) as [N1 N2]. split; auto. exists (unmont (cpm s M)).
      repeat split; auto. rewrite (m_into_affine_ok Hp _ _ _ Hm1 Hd HM _ N2). f_equal. apply (unmont_mrel Hp _ _ _ Hm1 Hd HM); auto.
    + intros k Hk. exact (bump_count U S1 4 4 B k Hk).
Qed.

(** The addition does not constrain the sum of a point and itself: the slope
    is free, so the constraints hold with a result off the curve. *)
Lemma owned_var73 U v n : In (Aux n) U -> owned (p := 73) U (cvar v (Aux n)).
Proof.
  pose proof prime_73 as Hp.
  intros H. apply (wf_var (prime_gt1 Hp) (mkst U 0)). exact H.
Qed.
Definition q73 (k : nat) : CPoint 73 := mkP (cvar None (Aux k)) (cvar None (Aux (S k))).
Lemma claim_C79_add_equal_refuted : exists (p l : positive) (J : JubJub p l) (U : list Index) (M N R : CPoint p) tr s, jubjub_ok J /\
  exec U (cm_add (ja J) (jb J) M N) tr (Some R) /\ In I0 U /\ Forall (owned U) (coords M ++ coords N) /\ s I0 = 1 /\ sat s tr /\
  on_mont (ja J) (jb J) (cpm s M) /\ cpm s M = cpm s N /\ ceval s (px M) <> 0 /\ ~ on_mont (ja J) (jb J) (cpm s R).
Proof.
  set (m := cm_add (ja toy2) (jb toy2) (q73 0) (q73 2)).
  set (s := assign [num 64; num 64; num 64; num 64; num 5; num 25; num 5 * (num 228 - num 35 * num 25)] : Index -> Num 73).
  pose proof (run_exec m 4 [I0; Aux 0; Aux 1; Aux 2; Aux 3]) as He.
  assert (T : match snd (run 4 m) with Some R => negb (neqb (jb toy2 * (ceval s (py R) * ceval s (py R)))
      (ceval s (px R) * ceval s (px R) * ceval s (px R) + ja toy2 * (ceval s (px R) * ceval s (px R)) + ceval s (px R)))
      | None => false end && satb s (fst (run 4 m)) = true) by (vm_compute; reflexivity).
  destruct (run 4 m) as [tr o]. cbn [fst snd] in *. apply Bool.andb_true_iff in T. destruct T as [T1 T2].
  destruct o as [R|]; [|discriminate]. apply Bool.negb_true_iff, neqb_neq in T1. apply satb_sat in T2.
  exists 73%positive, _, toy2, [I0; Aux 0; Aux 1; Aux 2; Aux 3], (q73 0), (q73 2), R, tr, s.
  split; [exact toy2_ok|]. split; [apply He; repeat constructor|].
  split; [now left|]. split; [repeat (constructor; [apply (owned_var73); cbn [In]; tauto|]); constructor|].
  split; [reflexivity|]. split; [exact T2|].
  split; [apply num_eq; vm_compute; reflexivity|]. split; [reflexivity|].
  split; [intros X; apply (f_equal nval) in X; vm_compute in X; discriminate X|]. exact T1.
Qed.

(** Nor does the conversion of the point of order two, (0, -1), constrain the
    second coordinate, where the native function gives (0, 0). *)
Lemma claim_C79_order_two_refuted : exists (p l : positive) (J : JubJub p l) (U : list Index) (P M : CPoint p) tr s, jubjub_ok J /\
  exec U (ce_into_montgomery P) tr (Some M) /\ In I0 U /\ Forall (owned U) (coords P) /\ s I0 = 1 /\ sat s tr /\
  on_curve (jd J) (cpe s P) /\ cpe s P <> mkE 0 1 /\ e_into_montgomery (cpe s P) = Ok (Some (mkM 0 0)) /\ cpm s M <> mkM 0 0.
Proof.
  set (m := ce_into_montgomery (q73 0)).
  set (s := assign [num 0; num 72; num 0; num 7] : Index -> Num 73).
  pose proof (run_exec m 2 [I0; Aux 0; Aux 1]) as He.
  assert (T : match snd (run 2 m) with Some R => negb (neqb (ceval s (py R)) 0) | None => false end && satb s (fst (run 2 m)) = true) by (vm_compute; reflexivity).
  destruct (run 2 m) as [tr o]. cbn [fst snd] in *. apply Bool.andb_true_iff in T. destruct T as [T1 T2].
  destruct o as [R|]; [|discriminate]. apply Bool.negb_true_iff, neqb_neq in T1. apply satb_sat in T2.
  exists 73%positive, _, toy2, [I0; Aux 0; Aux 1], (q73 0), R, tr, s.
  split; [exact toy2_ok|]. split; [apply He; repeat constructor|].
  split; [now left|]. split; [repeat (constructor; [apply (owned_var73); cbn [In]; tauto|]); constructor|].
  split; [reflexivity|]. split; [exact T2|].
  assert (C : on_curve (jd toy2) (cpe s (q73 0))) by (apply num_eq; vm_compute; reflexivity).
  split; [exact C|]. split.
  { intros X. apply (f_equal (fun P => nval (ey P))) in X. vm_compute in X. discriminate X. }
  split; [|intros X; apply T1; exact (f_equal my X)].
  pose proof toy2_ok as K.
  destruct (e_into_montgomery_ok (j_p _ K) _ _ _ (j_m1 _ K) (j_d _ K) (j_mont _ K) _ C) as [_ H]. vm_compute. reflexivity.
Qed.
Ltac demo_m := match goal with |- demo _ _ (fun s r => cpm s r = ?P) =>
  apply (demob_ok _ _ _ (fun s r => (neqb (ceval s (px r)) (mx P) && neqb (ceval s (py r)) (my P))%bool));
  [intros s r X; apply Bool.andb_true_iff in X; destruct X as [X Y]; apply neqb_eq in X, Y; unfold cpm; rewrite X, Y; reflexivity|vm_compute; reflexivity] end.
Lemma case_C79_into_montgomery : on_curve (jd toy2) (e73 1 56) /\
  demo [num 1; num 56] (ce_into_montgomery (p73 0 1 56)) (fun s M => cpm s M = mkM (num 64) (num 64)).
Proof. split; [apply e_is_in_curve_iff; vm_compute; reflexivity|]. demo_m. Qed.
Lemma case_C79_into_edwards : on_mont (ja toy2) (jb toy2) (mkM (num 64) (num 64)) /\
  demo [num 64; num 64] (cm_into_edwards (p73 0 64 64)) (fun s P => cpe s P = e73 1 56).
Proof. split; [apply num_eq; vm_compute; reflexivity|]. demo_pt. Qed.
Lemma case_C79_add : on_mont (ja toy2) (jb toy2) (mkM (num 48) (num 64)) /\ exists R, e_into_montgomery (eadd (jd toy2) (e73 1 56) (e73 19 68)) = Ok (Some R) /\
  demo [num 64; num 64; num 48; num 64] (cm_add (ja toy2) (jb toy2) (p73 0 64 64) (p73 2 48 64)) (fun s M => cpm s M = R).
Proof. split; [apply num_eq; vm_compute; reflexivity|]. eexists. split; [vm_compute; reflexivity|]. demo_m. Qed.
Lemma case_C79_double : exists R, e_into_montgomery (eadd (jd toy2) (e73 1 56) (e73 1 56)) = Ok (Some R) /\
  demo [num 64; num 64] (cm_double (ja toy2) (jb toy2) (p73 0 64 64)) (fun s M => cpm s M = R).
Proof. eexists. split; [vm_compute; reflexivity|]. demo_m. Qed.
Lemma case_C79_add_equal_refuted : jubjub_ok toy2 /\ on_mont (ja toy2) (jb toy2) (mkM (num 64) (num 64)).
Proof. split; [exact toy2_ok|apply num_eq; vm_compute; reflexivity]. Qed.
Lemma case_C79_order_two_refuted : jubjub_ok toy2 /\ on_curve (jd toy2) (e73 0 72).
Proof. split; [exact toy2_ok|apply e_is_in_curve_iff; vm_compute; reflexivity]. Qed.
