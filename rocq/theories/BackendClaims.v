(** C62: the Groth16 and test back ends. *)

From Verif Require Export SignalClaims Backends.
Open Scope num_scope.

(** The constraints of a run as linear combinations, and its auxiliary variables. *)
Fixpoint constraints {p} (tr : list (event p)) : list (lcT p * lcT p * lcT p) :=
  match tr with
  | [] => []
  | EEnf a b c :: tr => (clc a, clc b, clc c) :: constraints tr
  | _ :: tr => constraints tr
  end.
Fixpoint auxs {p} (tr : list (event p)) : list (Index * option (Num p)) :=
  match tr with
  | [] => []
  | EAlloc i v :: tr => (i, v) :: auxs tr
  | _ :: tr => auxs tr
  end.
(** bellman's numbering: inputs are Input 1, Input 2, ..., the others Aux 0, Aux 1, ... *)
Definition numbered_from {p} (ni na : nat) (tr : list (event p)) : Prop :=
  map fst (inputs tr) = map Input (seq ni (length (inputs tr))) /\
  map fst (auxs tr) = map Aux (seq na (length (auxs tr))).
Notation numbered := (numbered_from 1 0).

Definition used (ni na : nat) (U : list Index) : Prop :=
  Forall (fun i => match i with Input k => (k < ni)%nat | Aux k => (k < na)%nat end) U.
Lemma used_in ni na U : used ni na U -> used (S ni) na (Input ni :: U) /\ ~ In (Input ni) U.
Proof.
  intros H. split.
  - constructor; [lia|]. eapply Forall_impl; [|exact H]. intros []; lia.
  - intros Hin. unfold used in H. rewrite Forall_forall in H. apply H in Hin. lia.
Qed.
Lemma used_aux ni na U : used ni na U -> used ni (S na) (Aux na :: U) /\ ~ In (Aux na) U.
Proof.
  intros H. split.
  - constructor; [lia|]. eapply Forall_impl; [|exact H]. intros []; lia.
  - intros Hin. unfold used in H. rewrite Forall_forall in H. apply H in Hin. lia.
Qed.
Lemma numbered_exists {p A} (m : prog p A) : forall U ni na, used ni na U ->
  exists tr o, exec U m tr o /\ numbered_from ni na tr.
Proof.
  induction m as [a| |v k IH|v k IH|a b c k IH]; intros U ni na HU.
  - exists [], (Some a). repeat constructor.
  - exists [], None. repeat constructor.
  - destruct (used_aux _ _ _ HU) as [H1 H2]. destruct (IH (Aux na) _ _ _ H1) as [tr [o [E [N1 N2]]]].
    exists (EAlloc (Aux na) v :: tr), o. split; [now constructor|]. split; cbn; auto. now rewrite N2.
  - destruct (used_in _ _ _ HU) as [H1 H2]. destruct (IH (Input ni) _ _ _ H1) as [tr [o [E [N1 N2]]]].
    exists (EInput (Input ni) v :: tr), o. split; [now constructor|]. split; cbn; auto. now rewrite N1.
  - destruct (IH _ _ _ HU) as [tr [o [E N]]]. exists (EEnf a b c :: tr), o. split; [now constructor|exact N].
Qed.
Lemma key_run {p A} (m : prog p A) U tr o : exec U m tr o -> forall s, numbered_from (k_inputs s) (k_aux s) tr ->
  gk_run m s = match o with
    | Some a => Ok (mkK (k_inputs s + length (inputs tr)) (k_aux s + length (auxs tr)) (k_cons s ++ constraints tr), a)
    | None => Panic
    end.
Proof.
  induction 1 as [U a|U|U v k i tr o Hi He IH|U v k i tr o Hi He IH|U a b c k tr o He IH]; intros [ni na cs] [N1 N2]; cbn in *.
  - now rewrite !Nat.add_0_r, app_nil_r.
  - reflexivity.
  - injection N2 as -> N2. rewrite (IH (mkK ni (S na) cs)) by (split; auto). cbn. destruct o; auto.
    do 3 f_equal. lia.
  - injection N1 as -> N1. rewrite (IH (mkK (S ni) na cs)) by (split; auto). cbn. destruct o; auto.
    do 3 f_equal. lia.
  - unfold gk_enforce, b_cons, into_bellman_lc. rewrite IH by (split; auto). cbn. destruct o; auto. now rewrite <- app_assoc.
Qed.
(** The values in a list, if none is missing *)
Fixpoint all_some {X} (l : list (option X)) : option (list X) :=
  match l with
  | [] => Some []
  | None :: _ => None
  | Some x :: l => match all_some l with Some r => Some (x :: r) | None => None end
  end.
Lemma all_some_map {X} (l : list (option X)) r : all_some l = Some r <-> l = map Some r.
Proof.
  revert r. induction l as [|[x|] l IH]; intros r; cbn.
  - split; [now intros [= <-]|]. destruct r; [auto|discriminate].
  - destruct (all_some l) as [r'|] eqn:E.
    + split; [intros [= <-]; cbn; f_equal; now apply IH|]. destruct r as [|y r]; [discriminate|].
      cbn. intros [= -> H]. apply IH in H. congruence.
    + split; [discriminate|]. destruct r as [|y r]; [discriminate|]. cbn. intros [= _ H]. apply IH in H. discriminate.
  - split; [discriminate|]. destruct r; discriminate.
Qed.
Lemma prove_run {p A} (m : prog p A) U tr o : exec U m tr o -> forall s, numbered_from (length (p_inputs s)) (length (p_aux s)) tr ->
  gp_run m s = match o, all_some (map snd (inputs tr)), all_some (map snd (auxs tr)) with
    | Some a, Some iv, Some av => Ok (mkP (p_inputs s ++ iv) (p_aux s ++ av) (p_cons s ++ constraints tr), a)
    | _, _, _ => Panic
    end.
Proof.
  induction 1 as [U a|U|U v k i tr o Hi He IH|U v k i tr o Hi He IH|U a b c k tr o He IH]; intros [ni na cs] [N1 N2]; cbn in *.
  - now rewrite !app_nil_r.
  - reflexivity.
  - injection N2 as -> N2. destruct v as [x|]; cbn; [|now destruct o, (all_some (map snd (inputs tr)))].
    rewrite (IH (mkP ni (na ++ [x]) cs)) by (split; auto; cbn; now rewrite app_length, Nat.add_1_r). cbn.
    destruct o; auto. destruct (all_some (map snd (inputs tr))); auto. destruct (all_some (map snd (auxs tr))); auto.
    now rewrite <- app_assoc.
  - injection N1 as -> N1. destruct v as [x|]; cbn; [|now destruct o].
    rewrite (IH (mkP (ni ++ [x]) na cs)) by (split; auto; cbn; now rewrite app_length, Nat.add_1_r). cbn.
    destruct o; auto. destruct (all_some (map snd (inputs tr))); auto. destruct (all_some (map snd (auxs tr))); auto.
    now rewrite <- app_assoc.
  - unfold gp_enforce, b_cons, into_bellman_lc. rewrite IH by (split; auto). cbn.
    destruct o; auto. destruct (all_some (map snd (inputs tr))); auto. destruct (all_some (map snd (auxs tr))); auto.
    now rewrite <- app_assoc.
Qed.

(** The systems bellman works on: there is one run of the circuit with bellman's
    numbering, and whichever it is, the key generator has its constraints, and the
    prover has its constraints and its values and panics if one is missing. *)
Lemma claim_C62_groth16 : forall p A (m : prog p A),
  (exists tr o, exec [I0] m tr o /\ numbered tr) /\
  forall tr o, exec [I0] m tr o -> numbered tr ->
   (forall K a, key_system m = Ok (K, a) <->
      o = Some a /\ K = mkK (1 + length (inputs tr)) (length (auxs tr)) (constraints tr)) /\
   (forall P a, prove_system m = Ok (P, a) <->
      o = Some a /\ exists iv av, map snd (inputs tr) = map Some iv /\ map snd (auxs tr) = map Some av /\
        P = mkP (1 :: iv) av (constraints tr)) /\
   (In None (map snd (inputs tr)) \/ In None (map snd (auxs tr)) -> prove_system m = Panic).
Proof.
  intros p A m. split; [apply numbered_exists; repeat constructor|]. intros tr o He N.
  pose proof (key_run m _ tr o He keyasm_new N) as EK. pose proof (prove_run m _ tr o He proveasm_new N) as EP.
  cbn [k_inputs k_aux k_cons p_inputs p_aux p_cons keyasm_new proveasm_new app Nat.add] in EK, EP.
  unfold key_system, prove_system. rewrite EK, EP. split; [|split].
  - intros K a. destruct o as [a'|]; split; try discriminate.
    + intros [= <- <-]. auto.
    + intros [[= ->] ->]. reflexivity.
    + now intros [].
  - intros P a. split.
    + destruct o as [a'|]; [|discriminate]. destruct (all_some (map snd (inputs tr))) as [iv|] eqn:E1; [|discriminate].
      destruct (all_some (map snd (auxs tr))) as [av|] eqn:E2; [|discriminate]. intros [= <- <-].
      apply all_some_map in E1, E2. split; auto. exists iv, av. auto.
    + intros [-> [iv [av [E1 [E2 ->]]]]]. apply all_some_map in E1, E2. now rewrite E1, E2.
  - intros H. destruct o as [a'|]; auto. destruct (all_some (map snd (inputs tr))) as [iv|] eqn:E1; auto.
    destruct (all_some (map snd (auxs tr))) as [av|] eqn:E2; auto. apply all_some_map in E1, E2. rewrite E1, E2 in H.
    destruct H as [H|H]; apply in_map_iff in H as [x [H _]]; discriminate.
Qed.
Lemma case_C62_groth16 :
  let m w := circuit sqrt_search toyPP toy2 false w demo_public [] in
  prove_system (m (fun _ => None)) = Panic /\
  exists K P R R', key_system (m (fun _ => None)) = Ok (K, R) /\ prove_system (m demo_prove) = Ok (P, R') /\
    k_inputs K = 4%nat /\ k_aux K = 3%nat /\ p_inputs P = map num [1; 6; 5; 1]%Z /\ p_aux P = map num [1; 6; 6]%Z /\
    nth_error (p_cons P) 1 = Some ([(Input 1, num 1)], [(I0, num 1)], [(Aux 2, num 1)]).
Proof.
  cbv zeta. split; [vm_compute; reflexivity|].
  destruct (key_system _) as [[K R]|] eqn:EK; [|vm_compute in EK; discriminate].
  destruct (prove_system (circuit sqrt_search toyPP toy2 false demo_prove demo_public [])) as [[P R']|] eqn:EP; [|vm_compute in EP; discriminate].
  exists K, P, R, R'. split; [auto|]. split; [auto|].
  assert (FK : match key_system (circuit sqrt_search toyPP toy2 false (fun _ => None) demo_public []) with Ok (K, _) => (k_inputs K =? 4)%nat && (k_aux K =? 3)%nat | Panic => false end = true) by (vm_compute; reflexivity).
  rewrite EK in FK. apply andb_true_iff in FK as [F1 F2]. apply Nat.eqb_eq in F1, F2. split; [auto|]. split; [auto|].
  assert (FP : match prove_system (circuit sqrt_search toyPP toy2 false demo_prove demo_public []) with
     Ok (P, _) => p_inputs P = map num [1; 6; 5; 1]%Z /\ p_aux P = map num [1; 6; 6]%Z /\ nth_error (p_cons P) 1 = Some ([(Input 1, num 1)], [(I0, num 1)], [(Aux 2, num 1)]) | Panic => False end).
  { vm_compute. repeat split; reflexivity. }
  rewrite EP in FP. exact FP.
Qed.

(** The key generator's system and the prover's are the same. *)
Definition same_asm {p} (K : @keyasm p) (P : @proveasm p) : Prop :=
  k_inputs K = length (p_inputs P) /\ k_aux K = length (p_aux P) /\ k_cons K = p_cons P.
Lemma shp_asm {p A B} strict (R : A -> B -> Prop) (m : prog p A) : forall (m' : prog p B), shp strict R m m' ->
  forall K P P' a, same_asm K P -> gp_run m P = Ok (P', a) ->
   (strict = true -> gk_run m' K <> Panic) /\ (forall K' b, gk_run m' K = Ok (K', b) -> same_asm K' P' /\ R a b).
Proof.
  induction m as [a| |v k IH|v k IH|a b c k IH]; intros [a'| |v' k'|v' k'|a' b' c' k'] H K P P' x HS HR; cbn in H; try contradiction;
    try (split; [congruence|discriminate]); cbn [gp_run gk_run] in *; try discriminate.
  - injection HR as <- <-. split; [discriminate|]. intros K' b [= <- <-]. auto.
  - destruct v as [w|]; [|discriminate]. cbn in HR. destruct HS as [S1 [S2 S3]]. unfold gk_alloc. rewrite S2.
    eapply IH; [apply H| |exact HR]. split; [|split]; cbn; auto. now rewrite app_length, Nat.add_1_r.
  - destruct v as [w|]; [|discriminate]. cbn in HR. destruct HS as [S1 [S2 S3]]. unfold gk_alloc_input. rewrite S1.
    eapply IH; [apply H| |exact HR]. split; [|split]; cbn; auto. now rewrite app_length, Nat.add_1_r.
  - destruct H as [[E1 [E2 E3]] H]. eapply IH; [apply H| |exact HR]. destruct HS as [S1 [S2 S3]].
    split; [|split]; cbn; auto. unfold b_cons, into_bellman_lc, same in *. congruence.
Qed.
Lemma claim_C62_same_system : forall p l sqrt PP (J : JubJub p l) wit wit' ops K R P R',
  key_system (circuit sqrt PP J false wit ops []) = Ok (K, R) ->
  prove_system (circuit sqrt PP J false wit' ops []) = Ok (P, R') ->
  k_inputs K = length (p_inputs P) /\ k_aux K = length (p_aux P) /\ k_cons K = p_cons P.
Proof.
  intros p l sqrt PP J wit wit' ops K R P R' HK HP.
  assert (H : shp false (Forall2 (sm false)) (circuit sqrt PP J false wit' ops []) (circuit sqrt PP J false wit ops [])).
  { apply shp_circuit; try discriminate. constructor. }
  refine (proj1 (proj2 (shp_asm _ _ _ _ H keyasm_new proveasm_new P R' _ HP) K R HK)). repeat split.
Qed.
Lemma case_C62_same_system : exists K P R R',
  key_system (circuit sqrt_search toyPP toy2 false (fun _ => None) demo_public []) = Ok (K, R) /\
  prove_system (circuit sqrt_search toyPP toy2 false demo_prove demo_public []) = Ok (P, R').
Proof. destruct case_C62_groth16 as [_ [K [P [R [R' [H [H' _]]]]]]]. exists K, P, R, R'. auto. Qed.

(** If proving works, so does key generation. *)
Lemma claim_C62_keys_exist : forall p l sqrt PP (J : JubJub p l) wit ops P R,
  (2 <= num_bits p)%nat -> Forall limits ops ->
  prove_system (circuit sqrt PP J false wit ops []) = Ok (P, R) ->
  exists R', key_system (circuit sqrt PP J false (fun _ => None) ops []) = Ok (mkK (length (p_inputs P)) (length (p_aux P)) (p_cons P), R').
Proof.
  intros p l sqrt PP J wit ops P R Hn HL HP.
  assert (K : shp true (Forall2 (sm true)) (circuit sqrt PP J false wit ops []) (circuit sqrt PP J false (fun _ => None) ops [])).
  { apply shp_circuit; auto. intros _ k. apply ole_none. }
  destruct (shp_asm _ _ _ _ K keyasm_new proveasm_new P R) as [T1 T2]; [repeat split|exact HP|]. specialize (T1 eq_refl).
  unfold key_system. destruct (gk_run _ _) as [[K' R']|]; [|congruence].
  destruct (T2 _ _ eq_refl) as [[E1 [E2 E3]] _]. exists R'. destruct K'; cbn in *. congruence.
Qed.
Lemma case_C62_keys_exist : (2 <= num_bits 73)%nat /\ Forall limits demo_public /\
  exists P R, prove_system (circuit sqrt_search toyPP toy2 false demo_prove demo_public []) = Ok (P, R).
Proof.
  split; [vm_compute; lia|]. split; [repeat constructor|].
  destruct case_C62_groth16 as [_ [K [P [R [R' [_ [H' _]]]]]]]. exists P, R'. auto.
Qed.

(** TestCS: every variable is an Input. *)
Fixpoint t_numbered {p} (n : nat) (tr : list (event p)) : Prop :=
  match tr with
  | [] => True
  | EAlloc i _ :: tr | EInput i _ :: tr => i = Input n /\ t_numbered (S n) tr
  | EEnf _ _ _ :: tr => t_numbered n tr
  end.
(** The constraints whose three values are known hold for those values. *)
Definition checked {p} (tr : list (event p)) : Prop :=
  forall a b c x y z, In (EEnf a b c) tr -> cvalue a = Some x -> cvalue b = Some y -> cvalue c = Some z -> x * y = z.

Lemma t_numbered_exists {p A} (m : prog p A) : forall U n, used n 0 U -> exists tr o, exec U m tr o /\ t_numbered n tr.
Proof.
  induction m as [a| |v k IH|v k IH|a b c k IH]; intros U n HU.
  - exists [], (Some a). repeat constructor.
  - exists [], None. repeat constructor.
  - destruct (used_in _ _ _ HU) as [H1 H2]. destruct (IH (Input n) _ _ H1) as [tr [o [E N]]].
    exists (EAlloc (Input n) v :: tr), o. split; [now constructor|]. cbn; auto.
  - destruct (used_in _ _ _ HU) as [H1 H2]. destruct (IH (Input n) _ _ H1) as [tr [o [E N]]].
    exists (EInput (Input n) v :: tr), o. split; [now constructor|]. cbn; auto.
  - destruct (IH _ _ HU) as [tr [o [E N]]]. exists (EEnf a b c :: tr), o. split; [now constructor|exact N].
Qed.
Lemma test_run {p A} (m : prog p A) U tr o : exec U m tr o -> forall s, t_numbered (t_ninputs s) tr ->
  forall a, (exists T, t_run m s = Ok (T, a)) <-> o = Some a /\ checked tr.
Proof.
  induction 1 as [U a|U|U v k i tr o Hi He IH|U v k i tr o Hi He IH|U a b c k tr o He IH]; intros s N r; cbn [t_run t_numbered] in *.
  - split; [intros [T [= _ ->]]; split; auto; intros ? ? ? ? ? ? []|intros [[= ->] _]; eauto].
  - split; [intros [T H]; discriminate|intros []; discriminate].
  - destruct N as [-> N]. unfold t_alloc. rewrite IH by exact N. unfold checked. cbn [In].
    split; intros [-> H]; split; auto; intros x y z ? ? ? Hin; eapply H; auto. destruct Hin; [discriminate|auto].
  - destruct N as [-> N]. unfold t_alloc_input. rewrite IH by exact N. unfold checked. cbn [In].
    split; intros [-> H]; split; auto; intros x y z ? ? ? Hin; eapply H; auto. destruct Hin; [discriminate|auto].
  - assert (KK : (t_enforce a b c s = Panic /\ exists x y z, cvalue a = Some x /\ cvalue b = Some y /\ cvalue c = Some z /\ x * y <> z) \/
       (exists s', t_enforce a b c s = Ok s' /\ t_ninputs s' = t_ninputs s /\ forall x y z, cvalue a = Some x -> cvalue b = Some y -> cvalue c = Some z -> x * y = z)).
    { unfold t_enforce. destruct (cvalue a) as [x|], (cvalue b) as [y|], (cvalue c) as [z|];
        try (right; eexists; repeat split; discriminate). destruct (neqb (x * y) z) eqn:E.
      - right. eexists. repeat split. intros ? ? ? [= <-] [= <-] [= <-]. now apply neqb_eq.
      - left. split; auto. exists x, y, z. repeat split. intros X. apply neqb_eq in X. congruence. }
    destruct KK as [[-> [x [y [z [E1 [E2 [E3 X]]]]]]]|[s' [-> [EN X]]]].
    + split; [intros [T H]; discriminate|]. intros [_ H]. exfalso. apply X. apply (H a b c); auto. now left.
    + rewrite IH by now rewrite EN. split; intros [-> H]; split; auto; intros a0 b0 c0 x y z Hin.
      * destruct Hin as [[= -> -> ->]|Hin]; eauto.
      * apply H. now right.
Qed.
Lemma test_count {p A} (m : prog p A) U tr o : exec U m tr o -> forall s, t_numbered (t_ninputs s) tr ->
  forall T a, t_run m s = Ok (T, a) -> t_ncons T = (t_ncons s + ncons tr)%nat /\ t_ninputs T = (t_ninputs s + nvars tr)%nat.
Proof.
  induction 1 as [U a|U|U v k i tr o Hi He IH|U v k i tr o Hi He IH|U a b c k tr o He IH]; intros s N T r H; cbn [t_run t_numbered ncons nvars] in *.
  - injection H as <- _. auto.
  - discriminate.
  - destruct N as [-> N]. unfold t_alloc in H. apply IH in H; [|exact N]. cbn in H. lia.
  - destruct N as [-> N]. unfold t_alloc_input in H. apply IH in H; [|exact N]. cbn in H. lia.
  - destruct (t_enforce a b c s) as [s'|] eqn:E; [|discriminate].
    assert (t_ninputs s' = t_ninputs s /\ t_ncons s' = S (t_ncons s)) as [E1 E2].
    { unfold t_enforce in E. destruct (cvalue a), (cvalue b), (cvalue c); try (injection E as <-; auto).
      destruct (neqb _ _); [injection E as <-; auto|discriminate]. }
    apply IH in H; [|now rewrite E1]. lia.
Qed.

(** Any program: TestCS accepts iff it does not panic and the constraints with
    known values hold; num_constraints counts all of them. *)
Lemma claim_C62_testcs : forall p A (m : prog p A),
  (exists tr o, exec [I0] m tr o /\ t_numbered 1 tr) /\
  forall tr o, exec [I0] m tr o -> t_numbered 1 tr ->
    (forall a, (exists T, t_run m testcs_new = Ok (T, a)) <-> o = Some a /\ checked tr) /\
    (forall T a, t_run m testcs_new = Ok (T, a) -> num_constraints T = ncons tr).
Proof.
  intros p A m. split; [apply t_numbered_exists; repeat constructor|]. intros tr o He N. split.
  - now apply (test_run m _ tr o He testcs_new).
  - intros T a H. now apply (test_count m _ tr o He testcs_new N T a).
Qed.
(** A false constraint is rejected when its values are known, and not looked at when one is missing. *)
Lemma case_C62_testcs :
  t_run (p := 73) (Enforce cone cone czero (Ret tt)) testcs_new = Panic /\
  (exists T, t_run (p := 73) (Alloc None (fun i => Enforce cone (cvar None i) czero (Ret tt))) testcs_new = Ok (T, tt) /\ num_constraints T = 1%nat).
Proof. split; [reflexivity|]. eexists. split; reflexivity. Qed.
(** A circuit with a witness: TestCS accepts iff the witness satisfies the constraints. *)
Lemma claim_C62_test_accepts : forall p l (Hp : prime (Zpos p)) sqrt PP (J : JubJub p l) (wit : nat -> Num p) ops tr o s R,
  exec [I0] (circuit sqrt PP J false (fun k => Some (wit k)) ops []) tr o -> t_numbered 1 tr -> s I0 = 1 -> honest s tr ->
  ((exists T, t_run (circuit sqrt PP J false (fun k => Some (wit k)) ops []) testcs_new = Ok (T, R)) <-> o = Some R /\ sat s tr).
Proof.
  intros p l Hp sqrt PP J wit ops tr o s R He N Hs Hh.
  rewrite (test_run _ _ tr o He testcs_new N). destruct (claim_C05_proving p l Hp sqrt PP J wit ops [I0] tr o) as [_ K]; auto.
  { now left. }
  destruct (K s Hs Hh) as [_ K2]. split; intros [-> H]; split; auto.
  - intros a b c Hin. destruct (K2 a b c Hin) as [E1 [E2 E3]]. unfold holds. eapply H; eauto.
  - intros a b c x y z Hin F1 F2 F3. destruct (K2 a b c Hin) as [E1 [E2 E3]]. specialize (H a b c Hin). unfold holds in H. congruence.
Qed.
(** With [bad_wit] the last assertion of the circuit, that register 1 is zero, is false. *)
Definition demo_zero : list (@op 73) := [ oAlloc 0; oAlloc 1; oMul 0 1; oInputize 2; oSub 0 1; oAssertZero 3 ].
Definition good_wit (k : nat) : Num 73 := num 4.
Definition bad_wit (k : nat) : Num 73 := match k with O => num 4 | _ => num 5 end.
Lemma case_C62_test_accepts : prime 73 /\
  (exists T R, t_run (circuit sqrt_search toyPP toy2 false (fun k => Some (good_wit k)) demo_zero []) testcs_new = Ok (T, R)) /\
  t_run (circuit sqrt_search toyPP toy2 false (fun k => Some (bad_wit k)) demo_zero []) testcs_new = Panic.
Proof.
  split; [exact prime_73|]. split; [|vm_compute; reflexivity].
  destruct (t_run _ _) as [[T R]|] eqn:E; [eauto|]. vm_compute in E. discriminate.
Qed.
