(** C02, C05, C12, C13: facts about every circuit built from library calls. *)

From Coq Require Export Sorted.
From Verif Require Export OpsSpec Run Toy Curves.
Open Scope num_scope.

(** Every allocation of a proving run gets a value, so the values define an
    assignment. *)
Lemma alw_honest_exists {p A} U (m : prog p A) Q (s0 : Index -> Num p) tr o n :
  (forall s, (forall i, In i U -> s i = s0 i) -> alw Honest s (mkst U n) m Q) -> exec U m tr o ->
  exists s, (forall i, In i U -> s i = s0 i) /\ honest s tr.
Proof.
  intros G He. revert n s0 G.
  induction He as [U a|U|U v k i tr o Hi He IH|U v k i tr o Hi He IH|U a b c k tr o He IH]; intros n s0 G.
  - exists s0. split; auto. intros ? ? [[]|[]].
  - exists s0. split; auto. intros ? ? [[]|[]].
  - destruct v as [v|]; [|destruct (G s0 (fun _ _ => eq_refl)) as [Hv _]; exfalso; now apply Hv].
    destruct (IH n (fun j => if ieqb j i then v else s0 j)) as [s [E1 E2]].
    { intros s Hs. destruct (G s) as [_ Hw].
      - intros j Hj. rewrite Hs by now right. destruct (ieqb j i) eqn:E; auto. apply ieqb_eq in E; subst; contradiction.
      - apply Hw; auto. intros _. rewrite Hs by now left. now rewrite ieqb_refl. }
    exists s. split.
    + intros j Hj. rewrite E1 by now right. destruct (ieqb j i) eqn:E; auto. apply ieqb_eq in E; subst; contradiction.
    + intros j w [[E|Hin]|[E|Hin]]; try discriminate; auto. inversion E; subst. rewrite (E1 j) by now left. now rewrite ieqb_refl.
  - destruct v as [v|]; [|destruct (G s0 (fun _ _ => eq_refl)) as [Hv _]; exfalso; now apply Hv].
    destruct (IH n (fun j => if ieqb j i then v else s0 j)) as [s [E1 E2]].
    { intros s Hs. destruct (G s) as [_ Hw].
      - intros j Hj. rewrite Hs by now right. destruct (ieqb j i) eqn:E; auto. apply ieqb_eq in E; subst; contradiction.
      - apply Hw; auto. intros _. rewrite Hs by now left. now rewrite ieqb_refl. }
    exists s. split.
    + intros j Hj. rewrite E1 by now right. destruct (ieqb j i) eqn:E; auto. apply ieqb_eq in E; subst; contradiction.
    + intros j w [[E|Hin]|[E|Hin]]; try discriminate; auto. inversion E; subst. rewrite (E1 j) by now left. now rewrite ieqb_refl.
  - destruct (IH (S n) s0) as [s [E1 E2]].
    { intros s Hs. now destruct (G s Hs) as [_ Hw]. }
    exists s. split; auto. intros j w [[E|Hin]|[E|Hin]]; try discriminate; auto.
Qed.

Lemma canonical_nodup {p} (lc : lcT p) : canonical lc -> NoDup (map fst lc).
Proof.
  intros [H _]. induction H as [|[k v] lc H IH Hl]; cbn; constructor; auto.
  intros Hin. apply in_map_iff in Hin as [[k' v'] [E Hin]]. cbn in E. subst k'.
  rewrite Forall_forall in Hl. specialize (Hl _ Hin). unfold ilt in Hl. cbn in Hl.
  destruct k; cbn in Hl; rewrite Nat.compare_refl in Hl; discriminate.
Qed.

(** C02. [R] is every circuit number obtained; the numbers handed to the
    constraint system are covered too. *)
Lemma claim_C02_canonical : forall p l (Hp : prime (Zpos p)) sqrt PP (J : JubJub p l) wit ops U tr o,
  In I0 U -> exec U (circuit sqrt PP J false wit ops []) tr o ->
  let canon (c : CNum p) := StronglySorted (fun x y => icmp (fst x) (fst y) = Lt) (clc c) /\ NoDup (map fst (clc c)) /\
      forall k v, In (k, v) (clc c) -> v = 0 -> k = I0 in
  (forall R c, o = Some R -> In c R -> canon c) /\
  (forall a b c, In (EEnf a b c) tr -> canon a /\ canon b /\ canon c).
Proof.
  intros p l Hp sqrt PP J wit ops U tr o H0 He canon.
  assert (K : alw Sound (fun _ => 1) (mkst U 0) (circuit sqrt PP J false wit ops []) (fun S1 r => Forall (good Sound (fun _ => 1) S1) r)).
  { apply (alw_circuit Hp); try discriminate; auto. split; auto. }
  destruct (alw_run Sound _ _ _ _ _ _ _ K He) as [T1 T2]; [discriminate|].
  assert (C : forall S1 c, wf S1 c -> canon c).
  { intros S1 c [H _]. pose proof (canonical_nodup _ H). destruct H as [H H']. split; [exact H|]. split; auto. }
  split.
  - intros R c E Hc. specialize (T2 R E). rewrite Forall_forall in T2. eapply C, T2, Hc.
  - intros a b c Hin. destruct (T1 _ _ _ Hin) as [[X _] [[Y _] [Z _]]]. repeat split; eapply C; eauto.
Qed.

(** C05, proving: every cached value is the linear combination at the
    assignment handed over, which exists. *)
Lemma claim_C05_proving : forall p l (Hp : prime (Zpos p)) sqrt PP (J : JubJub p l) (wit : nat -> Num p) ops U tr o,
  In I0 U -> exec U (circuit sqrt PP J false (fun k => Some (wit k)) ops []) tr o ->
  (exists s, s I0 = 1 /\ honest s tr) /\
  (forall s, s I0 = 1 -> honest s tr ->
     (forall R c, o = Some R -> In c R -> cvalue c = Some (ceval s c)) /\
     (forall a b c, In (EEnf a b c) tr ->
        cvalue a = Some (ceval s a) /\ cvalue b = Some (ceval s b) /\ cvalue c = Some (ceval s c))).
Proof.
  intros p l Hp sqrt PP J wit ops U tr o H0 He.
  assert (K : forall s, s I0 = 1 -> alw Honest s (mkst U 0) (circuit sqrt PP J false (fun k => Some (wit k)) ops []) (fun S1 r => Forall (good Honest s S1) r)).
  { intros s Hs. apply (alw_circuit Hp); try discriminate; auto. split; auto. }
  split.
  - destruct (alw_honest_exists U (circuit sqrt PP J false (fun k => Some (wit k)) ops []) (fun _ _ => True) (fun _ => 1) tr o 0) as [s [E1 E2]]; auto.
    { intros s Hs. eapply alw_mono; [apply K; rewrite Hs; auto|]. auto. }
    exists s. split; auto.
  - intros s Hs Hh. destruct (alw_run Honest _ _ _ _ _ _ _ (K s Hs) He) as [T1 T2]; [auto|]. split.
    + intros R c E Hc. specialize (T2 R E). rewrite Forall_forall in T2. exact (proj2 (T2 c Hc)).
    + intros a b c Hin. destruct (T1 _ _ _ Hin) as [[_ X] [[_ Y] [_ Z]]]. auto.
Qed.

(** C05, setup: no cached value except on constants, in circuits that do not
    give constants to the gadgets that compute hints from their arguments. *)
Lemma claim_C05_setup : forall p l (Hp : prime (Zpos p)) sqrt PP (J : JubJub p l) ops U tr R c,
  ju J <> 0 -> In I0 U -> exec U (circuit sqrt PP J true (fun _ => None) ops []) tr (Some R) -> In c R ->
  forall v, cvalue c = Some v -> as_const c = Some v.
Proof.
  intros p l Hp sqrt PP J ops U tr R c Hu H0 He Hc.
  assert (K : alw Setup (fun _ => 1) (mkst U 0) (circuit sqrt PP J true (fun _ => None) ops []) (fun S1 r => Forall (good Setup (fun _ => 1) S1) r)).
  { apply (alw_circuit Hp); try discriminate; auto. split; auto. }
  destruct (alw_run Setup _ _ _ _ _ _ _ K He) as [T1 T2]; [discriminate|].
  specialize (T2 R eq_refl). rewrite Forall_forall in T2. exact (proj2 (T2 c Hc)).
Qed.

(** A run of a sequence is a run of each part. *)
Lemma exec_bind {p A B} (m : prog p A) (f : A -> prog p B) b : forall U tr,
  exec U (pbind m f) tr (Some b) <->
  exists t1 t2 a, tr = t1 ++ t2 /\ exec U m t1 (Some a) /\ exec (vars t1 U) (f a) t2 (Some b).
Proof.
  induction m as [a| |v k IH|v k IH|x y z k IH]; intros U tr; cbn [pbind].
  - split.
    + intros H. exists [], tr, a. repeat split; auto. constructor.
    + intros [t1 [t2 [a' [-> [H1 H2]]]]]. inversion H1; subst. exact H2.
  - split; [inversion 1|]. intros [t1 [t2 [a' [-> [H1 H2]]]]]. inversion H1.
  - split.
    + inversion 1; subst. apply IH in H6 as [t1 [t2 [a [-> [H1 H2]]]]]. exists (EAlloc i v :: t1), t2, a.
      repeat split; auto. constructor; auto.
    + intros [t1 [t2 [a' [-> [H1 H2]]]]]. inversion H1; subst. cbn [app vars] in *. constructor; auto. apply IH. eauto 10.
  - split.
    + inversion 1; subst. apply IH in H6 as [t1 [t2 [a [-> [H1 H2]]]]]. exists (EInput i v :: t1), t2, a.
      repeat split; auto. constructor; auto.
    + intros [t1 [t2 [a' [-> [H1 H2]]]]]. inversion H1; subst. cbn [app vars] in *. constructor; auto. apply IH. eauto 10.
  - split.
    + inversion 1; subst. apply IH in H7 as [t1 [t2 [a [-> [H1 H2]]]]]. exists (EEnf x y z :: t1), t2, a.
      repeat split; auto. constructor; auto.
    + intros [t1 [t2 [a' [-> [H1 H2]]]]]. inversion H1; subst. cbn [app vars] in *. constructor; auto. apply IH. eauto 10.
Qed.
Lemma exec_bind_mono {p A B} (m : prog p A) (f f' : A -> prog p B) b U tr :
  (forall a U tr, exec U (f a) tr (Some b) -> exec U (f' a) tr (Some b)) ->
  exec U (pbind m f) tr (Some b) -> exec U (pbind m f') tr (Some b).
Proof.
  intros H. rewrite !exec_bind. intros [t1 [t2 [a [E [H1 H2]]]]]. exists t1, t2, a. auto.
Qed.
Lemma exec_passert {p A} x y (m : prog p A) U tr a : (x = true -> y = true) ->
  exec U (passert x ;;; m) tr (Some a) -> exec U (passert y ;;; m) tr (Some a).
Proof. destruct x; cbn; [intros ->; auto|]. inversion 2. Qed.
Lemma step_guard {p l} sqrt PP (J : JubJub p l) wit R o U tr r :
  exec U (step sqrt PP J true wit R o) tr (Some r) -> exec U (step sqrt PP J false wit R o) tr (Some r).
Proof.
  destruct o; cbn [step]; auto; repeat (apply exec_bind_mono; intros ? ? ?); apply exec_passert; auto.
Qed.

(** The restriction only removes circuits: where the restricted run does not
    panic it is a run of the library. *)
Lemma claim_C05_setup_runs : forall p l sqrt PP (J : JubJub p l) wit ops R0 U tr R,
  exec U (circuit sqrt PP J true wit ops R0) tr (Some R) -> exec U (circuit sqrt PP J false wit ops R0) tr (Some R).
Proof.
  intros p l sqrt PP J wit ops. induction ops as [|o ops IH]; intros R0 U tr R; cbn [circuit]; auto.
  rewrite !exec_bind. intros [t1 [t2 [a [E [H1 H2]]]]]. exists t1, t2, a. auto using step_guard.
Qed.

(** The demonstration circuit: 24 calls of every kind over a curve on the
    field of 73 elements. *)
Definition toyPP : PoseidonParams 73 :=
  mkPP [num 3; num 4; num 5] [[num 1; num 2; num 3]; [num 4; num 5; num 7]; [num 2; num 9; num 1]] 3 2 1.
Definition demo_ops : list (@op 73) :=
  [ oAlloc 0; oAlloc 1; oConst (num 5); oAdd 0 1; oMul 3 0; oSub 4 2; oDiv 4 3; oIsZero 5;
    oSwitch 0 7 1; oInputize 8; oAssertNonzero 0; oEDecompress 0; oEMul (9, 10)%nat [7; 7; 7]%nat; oEDouble (9, 10)%nat;
    oIntoBitsStrict 1; oFromBits [15; 16; 17]%nat; oPoseidon [0; 1]%nat; oMerkleProof 0 [1]%nat [7]%nat; oMux3 [15; 16; 17]%nat [map num [1; 2; 3; 4; 5; 6; 7; 8]%Z];
    oEFromScalar 1; oMulNum 4 (num 9); oNeg 4; oBAlloc 2; oBAssert 30 ].
Definition demo_wit (k : nat) : Num 73 := match k with O => num 1 | S O => num 6 | _ => num 1 end.
Definition demo_run (g : bool) (w : nat -> option (Num 73)) : prog 73 (list (CNum 73)) :=
  circuit sqrt_search toyPP toy2 g w demo_ops [].
Definition demo_prove : nat -> option (Num 73) := fun k => Some (demo_wit k).

Lemma exec_run {p A} (m : prog p A) : exec [I0] m (fst (run 0 m)) (snd (run 0 m)).
Proof. apply run_exec. repeat constructor. Qed.

Lemma case_C02_canonical : exists tr R, prime 73 /\ exec [I0] (demo_run false demo_prove) tr (Some R) /\
  length R = 31%nat /\ length tr = 395%nat /\ clc (nth 5 R czero) = [(I0, num (-5)); (Aux 2, num 1)].
Proof.
  pose proof (exec_run (demo_run false demo_prove)) as H.
  exists (fst (run 0 (demo_run false demo_prove))).
  assert (E : match snd (run 0 (demo_run false demo_prove)) with
    | Some R => (length R =? 31)%nat && match clc (nth 5 R czero) with
        [(Input 0, a); (Aux 2, b)] => neqb a (num (-5)) && neqb b (num 1) | _ => false end | None => false end = true) by (vm_compute; reflexivity).
  destruct (snd (run 0 (demo_run false demo_prove))) as [R|]; [|discriminate]. exists R.
  apply andb_true_iff in E as [E1 E2]. apply Nat.eqb_eq in E1.
  split; [exact prime_73|]. split; [exact H|]. split; [exact E1|]. split; [vm_compute; reflexivity|].
  destruct (clc (nth 5 R czero)) as [|[[[|]|] a] [|[[|[|[|[|]]]] b] [|]]]; try discriminate.
  apply andb_true_iff in E2 as [Ea Eb]. apply neqb_eq in Ea, Eb. now subst.
Qed.
Lemma case_C05_proving : exists tr R, prime 73 /\ exec [I0] (demo_run false demo_prove) tr (Some R) /\
  map (fun c => option_map nval (cvalue c)) (firstn 9 R) = map Some [1; 6; 5; 7; 7; 2; 1; 0; 6]%Z.
Proof.
  pose proof (exec_run (demo_run false demo_prove)) as H.
  exists (fst (run 0 (demo_run false demo_prove))).
  assert (E : match snd (run 0 (demo_run false demo_prove)) with
    | Some R => map (fun c => option_map nval (cvalue c)) (firstn 9 R) = map Some [1; 6; 5; 7; 7; 2; 1; 0; 6]%Z
    | None => False end) by (vm_compute; reflexivity).
  destruct (snd (run 0 (demo_run false demo_prove))) as [R|]; [|contradiction]. exists R. split; [exact prime_73|]. auto.
Qed.
Lemma case_C05_setup : exists tr R, prime 73 /\ ju toy2 <> 0 /\ exec [I0] (demo_run true (fun _ => None)) tr (Some R) /\
  map (fun c => option_map nval (cvalue c)) (firstn 4 R) = [None; None; Some 5%Z; None].
Proof.
  pose proof (exec_run (demo_run true (fun _ => None))) as H.
  exists (fst (run 0 (demo_run true (fun _ => None)))).
  assert (E : match snd (run 0 (demo_run true (fun _ => None))) with
    | Some R => map (fun c => option_map nval (cvalue c)) (firstn 4 R) = [None; None; Some 5%Z; None]
    | None => False end) by (vm_compute; reflexivity).
  destruct (snd (run 0 (demo_run true (fun _ => None)))) as [R|]; [|contradiction]. exists R. split; [exact prime_73|].
  split; [|auto]. intros X. apply (f_equal nval) in X. vm_compute in X. discriminate.
Qed.
Lemma case_C05_setup_runs : exists tr R, exec [I0] (demo_run true (fun _ => None)) tr (Some R) /\ length R = 31%nat.
Proof.
  pose proof (exec_run (demo_run true (fun _ => None))) as H.
  exists (fst (run 0 (demo_run true (fun _ => None)))).
  assert (E : match snd (run 0 (demo_run true (fun _ => None))) with
    | Some R => length R = 31%nat | None => False end) by (vm_compute; reflexivity).
  destruct (snd (run 0 (demo_run true (fun _ => None)))) as [R|]; [|contradiction]. exists R. auto.
Qed.

(** Without the restriction the setup half of C05 is false: decompressing a
    constant leaves a cached value on a variable. *)
Lemma claim_C05_setup_hint_refuted : exists tr R c v,
  exec [I0] (circuit sqrt_search toyPP toy2 false (fun _ => None) [oConst (num 1); oEDecompress 0] []) tr (Some R) /\
  In c R /\ cvalue c = Some v /\ as_const c = None.
Proof.
  set (m := circuit sqrt_search toyPP toy2 false (fun _ => None) [oConst (num 1); oEDecompress 0] []).
  pose proof (exec_run m) as H.
  assert (E : match snd (run 0 m) with
    | Some R => match cvalue (nth 1 R czero) with Some v => match as_const (nth 1 R czero) with None => Nat.ltb 1 (length R) | _ => false end | None => false end
    | None => false end = true) by (vm_compute; reflexivity).
  exists (fst (run 0 m)). destruct (snd (run 0 m)) as [R|]; [|discriminate]. exists R, (nth 1 R czero).
  destruct (cvalue (nth 1 R czero)) as [v|]; [|discriminate]. exists v.
  destruct (as_const (nth 1 R czero)); [discriminate|]. apply Nat.ltb_lt in E.
  split; [exact H|]. split; [now apply nth_In|]. auto.
Qed.
Lemma case_C05_setup_hint_refuted : prime 73 /\ jubjub_ok toy2.
Proof. exact (conj prime_73 toy2_ok). Qed.

(** C12. [be] is a back end: it names variables from the calls it has seen. *)
Lemma claim_C12_same_system : forall p l sqrt PP (J : JubJub p l) wit wit' ops (be : list (@call p) -> Index) R R',
  snd (drive be [] (circuit sqrt PP J false wit ops [])) = Some R ->
  snd (drive be [] (circuit sqrt PP J false wit' ops [])) = Some R' ->
  fst (drive be [] (circuit sqrt PP J false wit ops [])) = fst (drive be [] (circuit sqrt PP J false wit' ops [])) /\
  map clc R = map clc R'.
Proof.
  intros p l sqrt PP J wit wit' ops be R R' H H'.
  assert (K : shp false (Forall2 (sm false)) (circuit sqrt PP J false wit ops []) (circuit sqrt PP J false wit' ops [])).
  { apply shp_circuit; try discriminate. constructor. }
  destruct (shp_drive _ _ _ _ be K [] R H) as [_ T]. destruct (T R' H') as [T1 T2]. split; auto.
  clear -T1. induction T1 as [|x y R R' [E _] T IH]; cbn; congruence.
Qed.
Definition first_aux (h : list (@call 73)) : Index := Aux (length (filter (fun c => match c with CEnf _ _ _ => false | _ => true end) (tl h))).
Lemma case_C12_same_system : exists R R',
  snd (drive first_aux [] (demo_run false demo_prove)) = Some R /\ snd (drive first_aux [] (demo_run false (fun _ => None))) = Some R' /\
  length (fst (drive first_aux [] (demo_run false demo_prove))) = 395%nat /\
  cvalue (nth 0 R czero) = Some (num 1) /\ cvalue (nth 0 R' czero) = None.
Proof.
  assert (E : match snd (drive first_aux [] (demo_run false demo_prove)), snd (drive first_aux [] (demo_run false (fun _ => None))) with
    | Some R, Some R' => match cvalue (nth 0 R czero), cvalue (nth 0 R' czero) with Some v, None => neqb v (num 1) | _, _ => false end
    | _, _ => false end = true) by (vm_compute; reflexivity).
  destruct (snd (drive first_aux [] (demo_run false demo_prove))) as [R|]; [|discriminate].
  destruct (snd (drive first_aux [] (demo_run false (fun _ => None)))) as [R'|]; [|discriminate].
  exists R, R'. destruct (cvalue (nth 0 R czero)) as [v|]; [|discriminate]. destruct (cvalue (nth 0 R' czero)); [discriminate|].
  apply neqb_eq in E. subst. split; [reflexivity|]. split; [reflexivity|]. split; [vm_compute; reflexivity|]. auto.
Qed.

(** C13. [limits]: bit lengths asked for do not exceed the size of the field. *)
Lemma claim_C13_setup_total : forall p l sqrt PP (J : JubJub p l) wit ops (be : list (@call p) -> Index) R,
  (2 <= num_bits p)%nat -> Forall limits ops ->
  snd (drive be [] (circuit sqrt PP J false wit ops [])) = Some R ->
  exists R', snd (drive be [] (circuit sqrt PP J false (fun _ => None) ops [])) = Some R' /\
    fst (drive be [] (circuit sqrt PP J false wit ops [])) = fst (drive be [] (circuit sqrt PP J false (fun _ => None) ops [])).
Proof.
  intros p l sqrt PP J wit ops be R Hn HL H.
  assert (K : shp true (Forall2 (sm true)) (circuit sqrt PP J false wit ops []) (circuit sqrt PP J false (fun _ => None) ops [])).
  { apply shp_circuit; auto. intros _ k. apply ole_none. }
  destruct (shp_drive _ _ _ _ be K [] R H) as [T1 T2]. specialize (T1 eq_refl).
  destruct (snd (drive be [] (circuit sqrt PP J false (fun _ => None) ops []))) as [R'|]; [|congruence].
  exists R'. split; auto. now destruct (T2 R' eq_refl).
Qed.
Lemma case_C13_setup_total : (2 <= num_bits 73)%nat /\ Forall limits demo_ops /\
  exists R, snd (drive first_aux [] (demo_run false demo_prove)) = Some R.
Proof.
  split; [vm_compute; lia|]. split; [repeat constructor|].
  destruct case_C12_same_system as [R [_ [H _]]]. eauto.
Qed.
(** The bound on bit lengths is needed: with 255 bits over the BN254 scalar
    field (254 bits) proving works and setup panics. *)
Definition bits255 (w : nat -> option (Num bn_r)) : prog bn_r (list (CNum bn_r)) :=
  circuit (fun _ => None) (mkPP [] [] 0 0 0) (mkJ (mkE 0 1) 0 0 0 0 : JubJub bn_r bn_l) false w [oAlloc 0; oIntoBits 0 255] [].
Lemma exec_some {p A} (m : prog p A) :
  match snd (run 0 m) with Some _ => true | None => false end = true -> exists tr R, exec [I0] m tr (Some R).
Proof. intros E. pose proof (exec_run m) as H. destruct (snd (run 0 m)) as [R|]; [eauto|discriminate]. Qed.
Lemma exec_none {p A} (m : prog p A) :
  match snd (run 0 m) with Some _ => false | None => true end = true -> exists tr, exec [I0] m tr None.
Proof. intros E. pose proof (exec_run m) as H. destruct (snd (run 0 m)) as [R|]; [discriminate|eauto]. Qed.
Lemma claim_C13_limit_refuted : exists R tr tr',
  exec [I0] (bits255 (fun _ => Some (num 5))) tr (Some R) /\ exec [I0] (bits255 (fun _ => None)) tr' None.
Proof.
  destruct (exec_some (bits255 (fun _ => Some (num 5)))) as [tr [R H]]; [vm_compute; reflexivity|].
  destruct (exec_none (bits255 (fun _ => None))) as [tr' H']; [vm_compute; reflexivity|]. eauto.
Qed.
Lemma case_C13_limit_refuted : Z.of_nat (num_bits bn_r) = 254%Z.
Proof. vm_compute. reflexivity. Qed.
