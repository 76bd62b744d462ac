(** C56, C57: composite signals and public inputs. *)

From Verif Require Export MetaClaims SignalSpec NoInput BitClaims.
Open Scope num_scope.

(** [acts_as m view m']: [m] and [m'] make the same calls on every back end and
    have the same outcome, results of [m] being seen through [view]. *)
Definition acts_as {p A B} (m : prog p A) (view : A -> B) (m' : prog p B) : Prop :=
  forall U tr,
    (forall a, exec U m tr (Some a) -> exec U m' tr (Some (view a))) /\
    (forall b, exec U m' tr (Some b) -> exists a, exec U m tr (Some a) /\ view a = b) /\
    (exec U m tr None <-> exec U m' tr None).
Lemma peq_acts {p A B} (m : prog p A) (view : A -> B) (m' : prog p B) : peq (fun a b => view a = b) m m' -> acts_as m view m'.
Proof.
  intros H U tr. pose proof (peq_exec _ _ _ H U tr) as K. pose proof (peq_exec _ _ _ (peq_sym _ _ _ H) U tr) as K'.
  split; [|split].
  - intros a He. destruct (K _ He) as [[b|] [H1 H2]]; [|contradiction]. now subst.
  - intros b He. destruct (K' _ He) as [[a|] [H1 H2]]; [|contradiction]. eauto.
  - split; intros He.
    + destruct (K _ He) as [[b|] [H1 H2]]; [contradiction|]. auto.
    + destruct (K' _ He) as [[b|] [H1 H2]]; [contradiction|]. auto.
Qed.
Lemma leafR_view {p} t (m : prog p (sig p t)) m' : peq (leafR t) m m' -> acts_as m (leaves t) m'.
Proof. intros H. apply peq_acts. eapply peq_mono; [exact H|]. now intros a b []. Qed.
Lemma leafR_sized {p} t (m : prog p (sig p t)) m' U tr x : peq (leafR t) m m' -> exec U m tr (Some x) -> sized t x.
Proof. intros H He. destruct (peq_exec _ _ _ H _ _ _ He) as [[b|] [_ E]]; [|contradiction]. apply E. Qed.

(** alloc allocates the leaves one after the other. *)
Lemma claim_C57_alloc : forall p t (v : val p t), vsized t v ->
  acts_as (s_alloc t (Some v)) (leaves t) (pmapM calloc (map Some (vleaves t v))) /\
  acts_as (s_alloc (p := p) t None) (leaves t) (pmapM calloc (repeat None (tsize t))) /\
  (forall o U tr x, o = Some v \/ o = None -> exec U (s_alloc t o) tr (Some x) -> sized t x).
Proof.
  intros p t v Hv. split; [|split].
  - apply leafR_view, alloc_some_both; auto.
  - apply leafR_view, alloc_none_both.
  - intros o U tr x [->| ->] He; eapply leafR_sized; eauto; [apply alloc_some_both; auto|apply alloc_none_both].
Qed.
Definition demo_t : sty := TProd (TCons TNum (TCons (TVec 2 (TProd (TCons TBool (TCons TNum TNil)))) (TCons t_point TNil))).
Definition demo_v : val 73 demo_t := (num 5, ([(true, (num 7, tt)); (false, (num 8, tt))], ((num 1, (num 2, tt)), tt))).
Definition demo_v' : val 73 demo_t := (num 5, ([(true, (num 7, tt)); (true, (num 8, tt))], ((num 1, (num 2, tt)), tt))).
Lemma case_C57_alloc : vsized demo_t demo_v /\ vleaves demo_t demo_v = map num [5; 1; 7; 0; 8; 1; 2]%Z /\ tsize demo_t = 7%nat.
Proof. split; [|split; reflexivity]. cbn. repeat constructor. Qed.

(** from_const gives constant leaves. *)
Lemma claim_C57_from_const : forall p t (v : val p t), vsized t v ->
  exists x, s_from_const t v = Ok x /\ sized t x /\ leaves t x = map cconst (vleaves t v).
Proof. intros p t v H. now apply from_const_both. Qed.
Lemma case_C57_from_const : exists x, s_from_const demo_t demo_v = Ok x /\ length (leaves demo_t x) = 7%nat.
Proof. eexists. split; [reflexivity|]. reflexivity. Qed.

(** switch, assert_const, assert_eq go leaf by leaf. *)
Lemma claim_C57_componentwise : forall p t (x y : sig p t) (v : val p t) (bit : CBool p),
  sized t x -> sized t y -> vsized t v ->
  acts_as (s_switch t x bit y) (leaves t) (pmapM (fun ab => cswitch (fst ab) bit (snd ab)) (combine (leaves t x) (leaves t y))) /\
  (forall U tr r, exec U (s_switch t x bit y) tr (Some r) -> sized t r) /\
  acts_as (s_assert_const t x v) (fun u => u) (piter (fun ab => cassert_const (fst ab) (snd ab)) (combine (leaves t x) (vleaves t v))) /\
  acts_as (s_assert_eq t x y) (fun u => u) (piter (fun ab => cassert_eq (fst ab) (snd ab)) (combine (leaves t x) (leaves t y))) /\
  length (leaves t x) = tsize t /\ length (leaves t y) = tsize t /\ length (vleaves t v) = tsize t.
Proof.
  intros p t x y v bit Hx Hy Hv. split; [|split; [|split; [|split]]].
  - apply leafR_view, switch_both; auto.
  - intros U tr r. eapply leafR_sized, switch_both; auto.
  - apply peq_acts. eapply peq_mono; [apply assert_const_both; auto|auto].
  - apply peq_acts. eapply peq_mono; [apply assert_eq_both; auto|auto].
  - rewrite !leaves_len, vleaves_len; auto.
Qed.
(** Two signals allocated from the values above, and what is done to them *)
Definition demo_two {A} (k : sig 73 demo_t -> sig 73 demo_t -> prog 73 A) : prog 73 A :=
  x <-- s_alloc demo_t (Some demo_v) ;; y <-- s_alloc demo_t (Some demo_v') ;; k x y.
Lemma case_C57_componentwise :
  demo [] (demo_two (fun x y => r <-- s_switch demo_t x (cbconst true) y ;; s_assert_const demo_t r demo_v ;;;
    b <-- cballoc (Some false) ;; r' <-- s_switch demo_t x b y ;; s_assert_eq demo_t r' y ;;; Ret (sized demo_t r', leaves demo_t r')))
    (fun s r => map (ceval s) (snd r) = map num [5; 1; 7; 1; 8; 1; 2]%Z).
Proof.
  apply (demob_ok _ _ _ (fun s r => forallb (fun ab => neqb (fst ab) (snd ab)) (combine (map (ceval s) (snd r)) (map num [5; 1; 7; 1; 8; 1; 2]%Z)) && Nat.eqb (length (snd r)) 7)).
  - intros s [P r]. cbn [snd]. intros H. apply andb_true_iff in H as [H1 H2]. apply Nat.eqb_eq in H2.
    do 7 (destruct r as [|? r]; [discriminate|]). destruct r; [|discriminate]. cbn [map combine forallb fst snd] in H1.
    repeat (apply andb_true_iff in H1 as [? H1]). repeat match goal with H : neqb _ _ = true |- _ => apply neqb_eq in H end.
    cbn [map]. congruence.
  - vm_compute. reflexivity.
Qed.

(** is_eq: the result is 1 if all leaves agree and 0 otherwise. Vectors must not
    be empty. *)
Lemma claim_C57_is_eq : forall p (Hp : prime (Zpos p)) t U (x y : sig p t), In I0 U -> noempty t -> sized t x -> sized t y ->
  Forall (owned U) (leaves t x) -> Forall (owned U) (leaves t y) ->
  let spec (s : Index -> Num p) (r : CBool p) :=
    (ceval s r = 1 /\ map (ceval s) (leaves t x) = map (ceval s) (leaves t y)) \/
    (ceval s r = 0 /\ map (ceval s) (leaves t x) <> map (ceval s) (leaves t y)) in
  sound_for U (s_is_eq t x y) spec /\
  complete_for U (s_is_eq t x y) (fun s => Forall (valued s) (leaves t x) /\ Forall (valued s) (leaves t y))
    (fun s r => valued s r /\ spec s r) /\
  (Forall blank (leaves t x) -> Forall blank (leaves t y) -> synth_for U (s_is_eq t x y) (fun _ _ r => blank r)).
Proof.
  intros p Hp t U x y H0 HN Sx Sy Ox Oy spec.
  assert (K : forall s r, ceval s r = nbool (forallb (fun ab => neqb (ceval s (fst ab)) (ceval s (snd ab))) (combine (leaves t x) (leaves t y))) -> spec s r).
  { intros s r E. assert (EL : length (leaves t x) = length (leaves t y)) by now rewrite !leaves_len.
    assert (G : forall a b : list (CNum p), length a = length b ->
       (forallb (fun ab => neqb (ceval s (fst ab)) (ceval s (snd ab))) (combine a b) = true <-> map (ceval s) a = map (ceval s) b)).
    { clear. induction a as [|c a IH]; intros [|d b]; cbn; intros E; try discriminate; [tauto|].
      rewrite andb_true_iff, IH, neqb_eq by auto. split; [intros [-> ->]; auto|intros X; inversion X; auto]. }
    specialize (G _ _ EL). destruct (forallb _ _); [left|right]; split; auto; [now apply G|]. intros X. apply G in X. discriminate. }
  split; [|split].
  - apply wp_sound_for; auto. intros s HS. eapply wp_mono; [apply (proj1 (is_eq_both Hp Sound s)); auto with claims|].
    intros S1 r _ [_ E]. apply K. now apply E.
  - apply wp_complete_for; auto.
    + intros s s' E [V1 V2]. split; eapply Forall_valued_ext; eauto.
    + intros s HS [V1 V2]. eapply wp_mono; [apply (proj1 (is_eq_both Hp Honest s)); auto with claims|].
      intros S1 r _ [[_ G] E]. split; [exact G|]. apply K. now apply E.
  - intros B1 B2. apply wp_synth_for; auto. intros s HS. eapply wp_mono; [apply (proj1 (is_eq_both Hp Setup s)); auto with claims|].
    intros S1 r _ [[_ G] E]. intros k _; exact G.
Qed.
Lemma case_C57_is_eq : prime 73 /\ noempty demo_t /\
  demo [] (demo_two (fun x y => a <-- s_is_eq demo_t x x ;; b <-- s_is_eq demo_t x y ;; Ret (a, b)))
    (fun s r => ceval s (fst r) = 1 /\ ceval s (snd r) = 0).
Proof.
  split; [exact prime_73|]. split; [cbn; repeat constructor; discriminate|].
  apply (demob_ok _ _ _ (fun s r => neqb (ceval s (fst r)) 1 && neqb (ceval s (snd r)) 0)).
  - intros s r H. apply andb_true_iff in H as [H1 H2]. split; now apply neqb_eq.
  - vm_compute. reflexivity.
Qed.
(** On an empty vector is_eq panics, so it is not the (true) empty conjunction. *)
Lemma claim_C57_is_eq_empty_panics : forall p t (x y : sig p (TVec 0 t)) U tr o,
  sized (TVec 0 t) x -> exec U (s_is_eq (TVec 0 t) x y) tr o -> o = None /\ tr = [].
Proof.
  intros p t x y U tr o [Lx _] He. change (sig p (TVec 0 t)) with (list (sig p t)) in x. destruct x; [|discriminate].
  cbn in He. inversion He; subst. auto.
Qed.
Lemma case_C57_is_eq_empty_panics : sized (p := 73) (TVec 0 TNum) [] /\ exec [I0] (s_is_eq (p := 73) (TVec 0 TNum) [] []) [] None.
Proof. split; [repeat constructor|]. cbn. constructor. Qed.

(** get_value and as_const ([f] is the operation on CNum): they give a value iff
    every leaf has one and Booleans are 0 or 1, and it is made of the leaves' values. *)
Lemma claim_C57_get : forall p (Hp : prime (Zpos p)) t (x : sig p t) (v : val p t), sized t x ->
  (s_get_value t x = Ok (Some v) <-> vsized t v /\ map cvalue (leaves t x) = map Some (vleaves t v)) /\
  (s_as_const t x = Ok (Some v) <-> vsized t v /\ map as_const (leaves t x) = map Some (vleaves t v)).
Proof. intros p Hp t x v H. split; now apply get_some_both. Qed.
Lemma case_C57_get : exists x, s_from_const demo_t demo_v = Ok x /\ sized demo_t x /\
  s_get_value demo_t x = Ok (Some demo_v) /\ s_as_const demo_t x = Ok (Some demo_v).
Proof. eexists. split; [reflexivity|]. split; [cbn; repeat constructor|]. split; vm_compute; reflexivity. Qed.
(** A missing value: None for products of numbers and Booleans. *)
Lemma claim_C57_get_none : forall p (Hp : prime (Zpos p)) t (x : sig p t), novec t ->
  (boolok cvalue t x -> s_get_value t x <> Panic /\ (s_get_value t x = Ok None <-> In None (map cvalue (leaves t x)))) /\
  (boolok as_const t x -> s_as_const t x <> Panic /\ (s_as_const t x = Ok None <-> In None (map as_const (leaves t x)))).
Proof. intros p Hp t x H. split; intros B; now apply get_none_both. Qed.
Lemma case_C57_get_none : novec t_point /\
  s_get_value (p := 73) t_point (cvar None (Aux 0), (cone, tt)) = Ok None /\ s_as_const (p := 73) t_point (cvar (Some 1) (Aux 0), (cone, tt)) = Ok None.
Proof. repeat split. Qed.
(** But a vector with a missing value panics instead of giving None. *)
Lemma claim_C57_get_vec_panics : forall p (Hp : prime (Zpos p)) L t (x : sig p (TVec L t)) f, sized (TVec L t) x ->
  In None (map f (leaves (TVec L t) x)) -> s_get f (TVec L t) x = Panic.
Proof.
  intros p Hp L t x f HS HN. destruct (s_get f (TVec L t) x) as [[v|]|] eqn:E; auto.
  - apply (get_some_both f Hp) in E as [_ E]; auto. rewrite E in HN. apply in_map_iff in HN as [? [X _]]. discriminate.
  - exfalso. revert E. apply get_vec_not_none. apply HS.
Qed.
Lemma case_C57_get_vec_panics : sized (p := 73) (TVec 2 TNum) [cone; cvar None (Aux 0)] /\
  In None (map cvalue (leaves (p := 73) (TVec 2 TNum) [cone; cvar None (Aux 0)])).
Proof. split; [repeat constructor|]. right; now left. Qed.
Lemma claim_C57_get_value_refuted : exists (x : sig 73 (TVec 2 TNum)),
  sized (TVec 2 TNum) x /\ map (s_get_value TNum) x = [Ok (Some 1); Ok None] /\ s_get_value (TVec 2 TNum) x = Panic.
Proof. exists [cone; cvar None (Aux 0)]. split; [repeat constructor|]. split; reflexivity. Qed.
Lemma case_C57_get_value_refuted : s_get_value (p := 73) (TVec 2 TNum) [cone; cone] = Ok (Some [1; 1]).
Proof. reflexivity. Qed.

(** C56: linearize lists the leaves, and inputize makes them public in that order. *)
Lemma claim_C56_linearize : forall p t (x : sig p t),
  s_linearize t x = leaves t x /\ acts_as (s_inputize t x) (fun u => u) (piter cinputize (s_linearize t x)).
Proof.
  intros p t x. rewrite linearize_leaves. split; auto. apply peq_acts. eapply peq_mono; [apply inputize_both|auto].
Qed.
Lemma case_C56_linearize : exists x, s_from_const demo_t demo_v = Ok x /\ s_linearize demo_t x = map (fun k => cconst (num k)) [5; 1; 7; 0; 8; 1; 2]%Z.
Proof. eexists. split; reflexivity. Qed.

(** The public inputs of a run, in order, and the registers a circuit makes public. *)
Fixpoint inputs {p} (tr : list (event p)) : list (Index * option (Num p)) :=
  match tr with
  | [] => []
  | EInput i v :: tr => (i, v) :: inputs tr
  | _ :: tr => inputs tr
  end.
Fixpoint inputized {p} (ops : list (@op p)) : list nat :=
  match ops with
  | [] => []
  | oInputize a :: ops => a :: inputized ops
  | _ :: ops => inputized ops
  end.

Lemma inputs_app {p} (t1 t2 : list (event p)) : inputs (t1 ++ t2) = inputs t1 ++ inputs t2.
Proof. induction t1 as [|[] t1 IH]; cbn; auto. now rewrite IH. Qed.
Lemma noin_inputs {p A} (m : prog p A) U tr o : noin m -> exec U m tr o -> inputs tr = [].
Proof. intros Hn He. induction He; cbn in *; auto. contradiction. Qed.

Definition bound {p} (tr : list (event p)) (R : list (CNum p)) (iv : Index * option (Num p)) (a : nat) : Prop :=
  exists c, nth_error R a = Some c /\
   ((as_const c = None /\ snd iv = cvalue c /\ In (EEnf (cvar (snd iv) (fst iv)) cone c) tr) \/
    (exists w, as_const c = Some w /\ snd iv = Some w /\ In (EEnf (cvar (snd iv) (fst iv)) cone (cconst w)) tr)).
Lemma bound_mono {p} (tr tr' : list (event p)) R R2 iv a : incl tr tr' -> bound tr R iv a -> bound tr' (R ++ R2) iv a.
Proof.
  intros Hi [c [H1 H2]]. exists c. split.
  - rewrite nth_error_app1; auto. apply nth_error_Some. congruence.
  - destruct H2 as [[E1 [E2 E3]]|[w [E1 [E2 E3]]]]; [left; auto|right; exists w; auto].
Qed.
Lemma inputize_trace {p} (c : CNum p) U tr r : exec U (cinputize c) tr (Some r) ->
  exists i v, inputs tr = [(i, v)] /\
   ((as_const c = None /\ v = cvalue c /\ In (EEnf (cvar v i) cone c) tr) \/
    (exists w, as_const c = Some w /\ v = Some w /\ In (EEnf (cvar v i) cone (cconst w)) tr)).
Proof.
  unfold cinputize. destruct (as_const c) as [w|] eqn:E; intros He; inversion He; subst;
    match goal with H : exec _ _ _ (Some _) |- _ => inversion H; subst end;
    match goal with H : exec _ _ _ (Some _) |- _ => cbn in H; inversion H; subst end;
    match goal with H : exec _ (Ret _) _ _ |- _ => inversion H; subst end.
  - exists i, (Some w). split; [reflexivity|]. right. exists w. repeat split. right; now left.
  - exists i, (cvalue c). split; [reflexivity|]. left. repeat split. right; now left.
Qed.

Lemma circuit_bound {p l} sqrt PP (J : JubJub p l) g wit ops : forall R U tr R',
  exec U (circuit sqrt PP J g wit ops R) tr (Some R') ->
  (exists R2, R' = R ++ R2) /\ Forall2 (bound tr R') (inputs tr) (inputized ops).
Proof.
  induction ops as [|o ops IH]; intros R U tr R'; cbn [circuit].
  - intros He; inversion He; subst. split; [exists []; now rewrite app_nil_r|]. constructor.
  - rewrite exec_bind. intros [t1 [t2 [r [-> [H1 H2]]]]]. destruct (IH _ _ _ _ H2) as [[R2 ->] HF].
    split; [exists (r ++ R2); now rewrite app_assoc|]. rewrite inputs_app.
    assert (HF' : Forall2 (bound (t1 ++ t2) ((R ++ r) ++ R2)) (inputs t2) (inputized ops)).
    { clear -HF. induction HF as [|iv a L L' [c [E1 E2]] HF IHF]; constructor; auto. exists c. split; auto.
      destruct E2 as [[A1 [A2 A3]]|[w [A1 [A2 A3]]]]; [left|right; exists w]; repeat split; auto; apply in_or_app; auto. }
    assert ((exists a, o = oInputize a) \/ forall a, o <> oInputize a) as [[a ->]|N].
    { destruct o; try (right; congruence). left; eauto. }
    + cbn [step inputized] in *. rewrite exec_bind in H1. destruct H1 as [u1 [u2 [c [-> [Hr Hc]]]]].
      unfold reg in Hr. destruct (nth_error R a) as [c'|] eqn:Ec; cbn in Hr; inversion Hr; subst. clear Hr.
      unfold r0 in Hc. rewrite exec_bind in Hc. destruct Hc as [w1 [w2 [u [-> [Hi Hr]]]]]. inversion Hr; subst. clear Hr.
      destruct (inputize_trace _ _ _ _ Hi) as [i [v [Ei Ed]]].
      cbn [app]. rewrite app_nil_r in *. rewrite Ei. cbn [app]. constructor; auto.
      exists c. split.
      * rewrite <- app_assoc, nth_error_app1; auto. apply nth_error_Some. congruence.
      * cbn [fst snd]. destruct Ed as [[A1 [A2 A3]]|[w [A1 [A2 A3]]]]; [left|right; exists w]; repeat split; auto; apply in_or_app; auto.
    + rewrite (noin_inputs _ _ _ _ (noin_step PP sqrt J g wit R o N) H1).
      replace (inputized (o :: ops)) with (inputized ops); [exact HF'|]. destruct o; try reflexivity. exfalso. eapply N; reflexivity.
Qed.

Section InputsProofs.
Context {p : positive}.
Add Ring sc_ring : (@num_ring p) (morphism (@num_morph p), constants [num_cst], power_tac (@num_power p) [num_pow_cst]).
Lemma bound_sat (s : Index -> Num p) tr R iv a : s I0 = 1 -> sat s tr -> bound tr R iv a ->
  exists c, nth_error R a = Some c /\ s (fst iv) = ceval s c.
Proof.
  intros Hs Hsat [c [E1 E2]]. exists c. split; auto.
  destruct E2 as [[A1 [A2 A3]]|[w [A1 [A2 A3]]]]; apply Hsat in A3; unfold holds in A3; rewrite ceval_var, ceval_one in A3 by auto.
  - rewrite <- A3. ring.
  - rewrite (as_const_eval s c w Hs A1). rewrite ceval_const in A3 by auto. rewrite <- A3. ring.
Qed.
End InputsProofs.

(** In every satisfying assignment the public variables, in the order of their
    allocation, are the signals the circuit inputized, in the order of the calls. *)
Lemma claim_C56_inputs_bound : forall p l sqrt PP (J : JubJub p l) g wit ops U tr R,
  exec U (circuit sqrt PP J g wit ops []) tr (Some R) ->
  exists cs, Forall2 (fun a c => nth_error R a = Some c) (inputized ops) cs /\
    forall s, s I0 = 1 -> sat s tr -> map (fun iv => s (fst iv)) (inputs tr) = map (ceval s) cs.
Proof.
  intros p l sqrt PP J g wit ops U tr R He. destruct (circuit_bound _ _ _ _ _ _ _ _ _ _ He) as [_ HF]. clear He.
  remember (inputs tr) as L eqn:EL. clear EL. induction HF as [|iv a L L' HB HF [cs [I1 I2]]].
  - exists []. split; [constructor|]. reflexivity.
  - destruct HB as [c [E1 E2]]. exists (c :: cs). split; [constructor; auto|]. intros s Hs Hsat. cbn [map]. rewrite I2 by auto. f_equal.
    destruct (bound_sat s tr R iv a Hs Hsat) as [c' [X Y]]; [exists c; auto|]. congruence.
Qed.
Definition demo_public : list (@op 73) := [ oAlloc 0; oAlloc 1; oConst (num 5); oMul 0 1; oInputize 3; oInputize 2; oInputize 0 ].
Definition demo_public_run := run 0 (circuit sqrt_search toyPP toy2 false demo_prove demo_public []).
Lemma case_C56_inputs_bound : inputized demo_public = [3; 2; 0]%nat /\
  exists R, exec [I0] (circuit sqrt_search toyPP toy2 false demo_prove demo_public []) (fst demo_public_run) (Some R) /\
   map snd (inputs (fst demo_public_run)) = map Some (map num [6; 5; 1]%Z).
Proof.
  split; [reflexivity|]. destruct (snd demo_public_run) as [R|] eqn:E; [|vm_compute in E; discriminate].
  exists R. split; [|vm_compute; reflexivity]. rewrite <- E. apply exec_run.
Qed.

(** While proving, the values given to the public variables are the values of
    those signals. *)
Lemma claim_C56_inputs_values : forall p l (Hp : prime (Zpos p)) sqrt PP (J : JubJub p l) (wit : nat -> Num p) ops U tr R, In I0 U ->
  exec U (circuit sqrt PP J false (fun k => Some (wit k)) ops []) tr (Some R) ->
  exists cs, Forall2 (fun a c => nth_error R a = Some c) (inputized ops) cs /\
    map snd (inputs tr) = map cvalue cs /\
    exists s, s I0 = 1 /\ honest s tr /\ map snd (inputs tr) = map (fun c => Some (ceval s c)) cs.
Proof.
  intros p l Hp sqrt PP J wit ops U tr R H0 He. destruct (circuit_bound _ _ _ _ _ _ _ _ _ _ He) as [_ HF].
  destruct (claim_C05_proving p l Hp sqrt PP J wit ops U tr _ H0 He) as [[s [Hs Hh]] K].
  destruct (K s Hs Hh) as [K1 _]. clear K He.
  assert (G : exists cs, Forall2 (fun a c => nth_error R a = Some c) (inputized ops) cs /\
    map snd (inputs tr) = map cvalue cs /\ map snd (inputs tr) = map (fun c => Some (ceval s c)) cs).
  { remember (inputs tr) as L eqn:EL. clear EL. induction HF as [|iv a L L' HB HF [cs [I1 [I2 I3]]]].
    - exists []. repeat constructor.
    - destruct HB as [c [E1 E2]]. exists (c :: cs). split; [constructor; auto|].
      assert (V : cvalue c = Some (ceval s c)) by (apply (K1 R); auto; eapply nth_error_In; eauto).
      assert (snd iv = cvalue c).
      { destruct E2 as [[A1 [A2 _]]|[w [A1 [A2 _]]]]; auto. rewrite V, A2. f_equal. symmetry. now apply as_const_eval. }
      cbn [map]. split; congruence. }
  destruct G as [cs [G1 [G2 G3]]]. exists cs. split; [|split]; auto. exists s. auto.
Qed.
Lemma case_C56_inputs_values : prime 73 /\
  exists R, exec [I0] (circuit sqrt_search toyPP toy2 false (fun k => Some (demo_wit k)) demo_public []) (fst demo_public_run) (Some R).
Proof. split; [exact prime_73|]. destruct case_C56_inputs_bound as [_ [R [H _]]]. exists R. exact H. Qed.
