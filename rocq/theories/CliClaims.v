(** C72: the public inputs of a circuit object. C75: the commands of the bindings. *)

From Verif Require Export FormatClaims BackendClaims VerifierClaims PointClaims.
Open Scope num_scope.

(** ** C72 *)
Lemma t_run_bind {p A B} (m : prog p A) (f : A -> prog p B) : forall s,
  t_run (pbind m f) s = match t_run m s with Ok (s', a) => t_run (f a) s' | Panic => Panic end.
Proof.
  induction m as [a| |v k IH|v k IH|a b c k IH]; intros s; cbn [pbind t_run]; auto.
  - destruct (t_alloc v s). apply IH.
  - destruct (t_alloc_input v s). apply IH.
  - destruct (t_enforce a b c s); auto.
Qed.
Lemma peq_t_run {p A B} (R : A -> B -> Prop) (m : prog p A) (m' : prog p B) : peq R m m' -> forall s,
  match t_run m s, t_run m' s with Ok (s1, a), Ok (s2, b) => s1 = s2 /\ R a b | Panic, Panic => True | _, _ => False end.
Proof.
  induction 1 as [a b H| |v k k' H IH|v k k' H IH|a b c k k' H IH]; intros s; cbn [t_run]; auto.
  - destruct (t_alloc v s). apply IH.
  - destruct (t_alloc_input v s). apply IH.
  - destruct (t_enforce a b c s); [apply IH|exact I].
Qed.
Lemma t_run_callocs {p} (l : list (option (Num p))) : forall s, exists s' x, t_run (pmapM calloc l) s = Ok (s', x) /\ map cvalue x = l.
Proof.
  induction l as [|v l IH]; intros s; cbn [pmapM]; [exists s, []; auto|]. rewrite t_run_bind. cbn [calloc t_run].
  destruct (t_alloc v s) as [i s1] eqn:E. cbn [t_run]. rewrite t_run_bind. destruct (IH s1) as [s2 [x [-> X]]]. cbn [t_run].
  eexists _, _. split; [reflexivity|]. cbn [map]. now rewrite X.
Qed.
Lemma t_run_ok {p A B} (m : prog p A) (f : A -> prog p B) s r : t_run (pbind m f) s = Ok r ->
  exists s' a, t_run m s = Ok (s', a) /\ t_run (f a) s' = Ok r.
Proof. rewrite t_run_bind. destruct (t_run m s) as [[s' a]|]; [eauto|discriminate]. Qed.
Lemma t_run_mapM {p A B} (f : A -> prog p B) (Q : A -> Prop) : (forall a s r, t_run (f a) s = Ok r -> Q a) ->
  forall l s s1 x, t_run (pmapM f l) s = Ok (s1, x) -> length x = length l /\ Forall Q l.
Proof.
  intros HQ. induction l as [|a l IH]; intros s s1 x E; cbn [pmapM] in E.
  - cbn in E. injection E as _ <-. auto.
  - rewrite t_run_bind in E. destruct (t_run (f a) s) as [[s2 b]|] eqn:E1; [|discriminate].
    rewrite t_run_bind in E. destruct (t_run (pmapM f l) s2) as [[s3 y]|] eqn:E2; [|discriminate]. cbn in E. injection E as _ <-.
    destruct (IH _ _ _ E2). apply HQ in E1. cbn. auto.
Qed.
(** Allocating with a vector of the wrong length anywhere panics. *)
Lemma t_run_sized {p} :
  (forall t (v : val p t) s r, t_run (s_alloc t (Some v)) s = Ok r -> vsized t v) /\
  (forall ts (v : vals p ts) s r, t_run (s_allocs ts (Some v)) s = Ok r -> vsizeds ts v).
Proof.
  apply sty_both; cbn [vsized vsizeds]; auto.
  - intros L t IH v s r. cbn [s_alloc]. unfold sv_collect. rewrite t_run_bind.
    destruct (t_run (pmapM (fun v => s_alloc t (Some v)) v) s) as [[s1 l]|] eqn:E; [|discriminate]. intros H.
    assert (length l = L) as LL. { unfold sv_from_iter in H. destruct (Nat.eqb_spec (length l) L); [auto|cbn in H; discriminate]. }
    destruct (t_run_mapM _ (vsized t) (fun a s r => IH a s r) v s s1 l E) as [X1 X2]. split; [exact (eq_trans (eq_sym X1) LL)|exact X2].
  - intros t IH ts IHs [v vs] s r H. destruct (t_run_ok _ _ _ _ H) as [s1 [x [E1 H2]]].
    destruct (t_run_ok _ _ _ _ H2) as [s2 [y [E2 _]]]. split; [exact (IH _ _ _ E1)|exact (IHs _ _ _ E2)].
Qed.
Lemma collect_all_some {A} (l : list (option A)) : collect_options l = all_some l.
Proof. induction l as [|[x|] l IH]; cbn; auto. Qed.
Lemma get_inputs_view {p} t o (l : list (option (Num p))) : peq (leafR t) (s_alloc t o) (pmapM calloc l) ->
  co_get_inputs t o = Ok (all_some l).
Proof.
  intros H. unfold co_get_inputs. pose proof (peq_t_run _ _ _ H testcs_new) as X. destruct (t_run_callocs l testcs_new) as [s' [x [E V]]].
  rewrite E in X. destruct (t_run (s_alloc t o) testcs_new) as [[s1 a]|]; [|contradiction]. destruct X as [-> [_ X]].
  cbn [rbind snd]. now rewrite linearize_leaves, X, V, collect_all_some.
Qed.
(** get_inputs: the leaves of the public value in the order of its declaration; a
    panic if a vector has the wrong length; without a value None, except when there
    is nothing to give. *)
Lemma claim_C72_get_inputs : forall p t (v : val p t),
  (vsized t v -> co_get_inputs t (Some v) = Ok (Some (vleaves t v))) /\
  (~ vsized t v -> co_get_inputs t (Some v) = Panic) /\
  co_get_inputs (p := p) t None = Ok (match tsize t with O => Some [] | S _ => None end).
Proof.
  intros p t v. split; [|split].
  - intros H. rewrite (get_inputs_view t (Some v) (map Some (vleaves t v))) by now apply alloc_some_both.
    f_equal. now apply all_some_map.
  - intros H. unfold co_get_inputs. destruct (t_run (s_alloc t (Some v)) testcs_new) as [r|] eqn:E; auto.
    exfalso. apply H. eapply (proj1 t_run_sized). exact E.
  - rewrite (get_inputs_view t None (repeat None (tsize t))) by apply alloc_none_both. now destruct (tsize t).
Qed.
Lemma case_C72_get_inputs : vsized demo_t demo_v /\ co_get_inputs demo_t (Some demo_v) = Ok (Some (map num [5; 1; 7; 0; 8; 1; 2]%Z)) /\
  ~ vsized (p := 73) (TVec 2 TNum) [num 1] /\ co_get_inputs (p := 73) (TVec 2 TNum) (Some [num 1]) = Panic.
Proof. split; [cbn; repeat constructor|]. split; [vm_compute; reflexivity|]. split; [intros [X _]; discriminate|reflexivity]. Qed.

(** What the key generator and the prover get *)
Lemma gp_run_bind {p A B} (m : prog p A) (f : A -> prog p B) : forall s,
  gp_run (pbind m f) s = match gp_run m s with Ok (s', a) => gp_run (f a) s' | Panic => Panic end.
Proof.
  induction m as [a| |v k IH|v k IH|a b c k IH]; intros s; cbn [pbind gp_run]; auto.
  - destruct (gp_alloc v s) as [[i s1]|]; auto.
  - destruct (gp_alloc_input v s) as [[i s1]|]; auto.
Qed.
Lemma gk_run_bind {p A B} (m : prog p A) (f : A -> prog p B) : forall s,
  gk_run (pbind m f) s = match gk_run m s with Ok (s', a) => gk_run (f a) s' | Panic => Panic end.
Proof.
  induction m as [a| |v k IH|v k IH|a b c k IH]; intros s; cbn [pbind gk_run]; auto.
  - destruct (gk_alloc v s). apply IH.
  - destruct (gk_alloc_input v s). apply IH.
Qed.
Lemma peq_gp_run {p A B} (R : A -> B -> Prop) (m : prog p A) (m' : prog p B) : peq R m m' -> forall s,
  match gp_run m s, gp_run m' s with Ok (s1, a), Ok (s2, b) => s1 = s2 /\ R a b | Panic, Panic => True | _, _ => False end.
Proof.
  induction 1 as [a b H| |v k k' H IH|v k k' H IH|a b c k k' H IH]; intros s; cbn [gp_run]; auto.
  - destruct (gp_alloc v s) as [[i s1]|]; [apply IH|exact I].
  - destruct (gp_alloc_input v s) as [[i s1]|]; [apply IH|exact I].
  - apply IH.
Qed.
Lemma peq_gk_run {p A B} (R : A -> B -> Prop) (m : prog p A) (m' : prog p B) : peq R m m' -> forall s,
  match gk_run m s, gk_run m' s with Ok (s1, a), Ok (s2, b) => s1 = s2 /\ R a b | Panic, Panic => True | _, _ => False end.
Proof.
  induction 1 as [a b H| |v k k' H IH|v k k' H IH|a b c k k' H IH]; intros s; cbn [gk_run]; auto.
  - destruct (gk_alloc v s). apply IH.
  - destruct (gk_alloc_input v s). apply IH.
  - apply IH.
Qed.
Lemma gp_run_noin {p A} (m : prog p A) : noin m -> forall s s' a, gp_run m s = Ok (s', a) -> p_inputs s' = p_inputs s.
Proof.
  induction m as [a| |v k IH|v k IH|a b c k IH]; intros N s s' x H; cbn [gp_run noin] in *; try discriminate; try contradiction.
  - now injection H as <- _.
  - destruct v as [w|]; [|discriminate]. cbn in H. apply IH in H; auto.
  - apply IH in H; auto.
Qed.
Lemma gk_run_noin {p A} (m : prog p A) : noin m -> forall s s' a, gk_run m s = Ok (s', a) -> k_inputs s' = k_inputs s.
Proof.
  induction m as [a| |v k IH|v k IH|a b c k IH]; intros N s s' x H; cbn [gk_run noin] in *; try discriminate; try contradiction.
  - now injection H as <- _.
  - cbn in H. apply IH in H; auto.
  - apply IH in H; auto.
Qed.
Lemma noin_alloc {p} :
  (forall t (v : option (val p t)), noin (s_alloc t v)) /\ (forall ts (v : option (vals p ts)), noin (s_allocs ts v)).
Proof.
  apply sty_both; cbn [s_alloc s_allocs].
  - intros v. apply noin_calloc.
  - intros v. apply noin_cballoc.
  - intros L t IH [v|]; apply noin_bind; try (apply noin_mapM; auto); intros; apply noin_lift.
  - auto.
  - intros v. exact I.
  - intros t IH ts IHs v. apply noin_bind; auto. intros x. apply noin_bind; auto. intros. exact I.
Qed.
Lemma gp_run_ok {p A B} (m : prog p A) (f : A -> prog p B) s r : gp_run (pbind m f) s = Ok r ->
  exists s' a, gp_run m s = Ok (s', a) /\ gp_run (f a) s' = Ok r.
Proof. rewrite gp_run_bind. destruct (gp_run m s) as [[s' a]|]; [eauto|discriminate]. Qed.
Lemma gp_run_mapM {p A B} (f : A -> prog p B) (Q : A -> Prop) : (forall a s r, gp_run (f a) s = Ok r -> Q a) ->
  forall l s s1 x, gp_run (pmapM f l) s = Ok (s1, x) -> length x = length l /\ Forall Q l.
Proof.
  intros HQ. induction l as [|a l IH]; intros s s1 x E; cbn [pmapM] in E.
  - cbn in E. injection E as _ <-. auto.
  - rewrite gp_run_bind in E. destruct (gp_run (f a) s) as [[s2 b]|] eqn:E1; [|discriminate].
    rewrite gp_run_bind in E. destruct (gp_run (pmapM f l) s2) as [[s3 y]|] eqn:E2; [|discriminate]. cbn in E. injection E as _ <-.
    destruct (IH _ _ _ E2). apply HQ in E1. cbn. auto.
Qed.
Lemma gp_run_sized {p} :
  (forall t (v : val p t) s r, gp_run (s_alloc t (Some v)) s = Ok r -> vsized t v) /\
  (forall ts (v : vals p ts) s r, gp_run (s_allocs ts (Some v)) s = Ok r -> vsizeds ts v).
Proof.
  apply sty_both; cbn [vsized vsizeds]; auto.
  - intros L t IH v s r. cbn [s_alloc]. unfold sv_collect. rewrite gp_run_bind.
    destruct (gp_run (pmapM (fun v => s_alloc t (Some v)) v) s) as [[s1 l]|] eqn:E; [|discriminate]. intros H.
    assert (length l = L) as LL. { unfold sv_from_iter in H. destruct (Nat.eqb_spec (length l) L); [auto|cbn in H; discriminate]. }
    destruct (gp_run_mapM _ (vsized t) (fun a s r => IH a s r) v s s1 l E) as [X1 X2]. split; [exact (eq_trans (eq_sym X1) LL)|exact X2].
  - intros t IH ts IHs [v vs] s r H. destruct (gp_run_ok _ _ _ _ H) as [s1 [x [E1 H2]]].
    destruct (gp_run_ok _ _ _ _ H2) as [s2 [y [E2 _]]]. split; [exact (IH _ _ _ E1)|exact (IHs _ _ _ E2)].
Qed.
Lemma gp_callocs {p} (l : list (Num p)) : forall s, exists s' x, gp_run (pmapM calloc (map Some l)) s = Ok (s', x) /\ map cvalue x = map Some l /\
  Forall (fun c => as_const c = None) x /\ p_inputs s' = p_inputs s.
Proof.
  induction l as [|v l IH]; intros s; cbn [map pmapM]; [exists s, []; auto|]. rewrite gp_run_bind. cbn [calloc gp_run gp_alloc grab rbind].
  rewrite gp_run_bind. destruct (IH (mkP (p_inputs s) (p_aux s ++ [v]) (p_cons s))) as [s2 [x [-> [X1 [X2 X3]]]]]. cbn [gp_run].
  eexists _, _. split; [reflexivity|]. cbn [map]. rewrite X1. repeat split; auto.
Qed.
Lemma gp_inputize {p} (x : list (CNum p)) l : map cvalue x = map Some l -> Forall (fun c => as_const c = None) x ->
  forall s s' u, gp_run (piter cinputize x) s = Ok (s', u) -> p_inputs s' = p_inputs s ++ l.
Proof.
  revert l. unfold piter. induction x as [|c x IH]; intros [|v l] E F s s' u; try discriminate; cbn [pfold].
  - cbn. intros [= <- _]. now rewrite app_nil_r.
  - cbn [map] in E. assert (E1 : cvalue c = Some v) by congruence. assert (E2 : map cvalue x = map Some l) by congruence.
    inversion F as [|? ? F1 F2]; subst. rewrite gp_run_bind. unfold cinputize at 1. rewrite F1, E1. cbn [pbind calloc_input gp_run gp_alloc_input grab rbind enforce].
    intros H. apply (IH l) in H; auto. rewrite H. cbn. now rewrite <- app_assoc.
Qed.
Lemma gk_inputize {p} (x : list (CNum p)) : forall s s' u, gk_run (piter cinputize x) s = Ok (s', u) -> k_inputs s' = (k_inputs s + length x)%nat.
Proof.
  unfold piter. induction x as [|c x IH]; intros s s' u; cbn [pfold length].
  - cbn. intros [= <- _]. lia.
  - rewrite gk_run_bind. unfold cinputize at 1. destruct (as_const c); cbn [pbind calloc_input gk_run gk_alloc_input enforce]; intros H; apply IH in H; rewrite H; cbn; lia.
Qed.
(** If the circuit itself makes nothing public, the prover's public inputs are one and
    then exactly what get_inputs gives, and the key generator counts as many. *)
Lemma claim_C72_prover : forall p A tp ts (main : sig p tp -> sig p ts -> prog p A) (v : val p tp) (w : val p ts),
  (forall x y, noin (main x y)) ->
  (forall P u, prove_system (co_synthesize tp ts main (Some v) (Some w)) = Ok (P, u) ->
     exists l, co_get_inputs tp (Some v) = Ok (Some l) /\ l = vleaves tp v /\ p_inputs P = 1 :: l) /\
  (forall K u, key_system (co_synthesize tp ts main None None) = Ok (K, u) -> k_inputs K = (1 + tsize tp)%nat).
Proof.
  intros p A tp ts main v w N. unfold prove_system, key_system, co_synthesize. split.
  - intros P u H. rewrite gp_run_bind in H. destruct (gp_run (s_alloc tp (Some v)) proveasm_new) as [[s1 x]|] eqn:E1; [|discriminate].
    assert (V : vsized tp v) by (eapply (proj1 gp_run_sized); exact E1). exists (vleaves tp v). split; [now apply claim_C72_get_inputs|]. split; [auto|].
    pose proof (peq_gp_run _ _ _ (proj1 alloc_some_both tp v V) proveasm_new) as X. rewrite E1 in X.
    destruct (gp_callocs (vleaves tp v) proveasm_new) as [s2 [l [E2 [C1 [C2 C3]]]]]. rewrite E2 in X. destruct X as [-> [_ X]].
    rewrite gp_run_bind in H. destruct (gp_run (s_alloc ts (Some w)) s2) as [[s3 y]|] eqn:E3; [|discriminate].
    apply gp_run_noin in E3; [|apply noin_alloc]. rewrite gp_run_bind in H.
    destruct (gp_run (main x y) s3) as [[s4 a]|] eqn:E4; [|discriminate]. apply gp_run_noin in E4; [|apply N].
    pose proof (peq_gp_run _ _ _ (proj1 inputize_both tp x) s4) as Y. rewrite H in Y.
    destruct (gp_run (piter cinputize (leaves tp x)) s4) as [[s5 b]|] eqn:E5; [|contradiction]. destruct Y as [-> _].
    rewrite X in E5. apply (gp_inputize _ (vleaves tp v)) in E5; auto. rewrite E5, E4, E3, C3. reflexivity.
  - intros K u H. rewrite gk_run_bind in H. destruct (gk_run (s_alloc tp None) keyasm_new) as [[s1 x]|] eqn:E1; [|discriminate].
    assert (L : length (leaves tp x) = tsize tp).
    { pose proof (peq_gk_run (p := p) _ _ _ (proj1 alloc_none_both tp) keyasm_new) as X. rewrite E1 in X.
      destruct (gk_run (pmapM calloc _) keyasm_new) as [[s2 l]|]; [|contradiction]. destruct X as [_ [X _]]. now apply leaves_len. }
    apply gk_run_noin in E1; [|apply noin_alloc]. rewrite gk_run_bind in H. destruct (gk_run (s_alloc ts None) s1) as [[s3 y]|] eqn:E3; [|discriminate].
    apply gk_run_noin in E3; [|apply noin_alloc]. rewrite gk_run_bind in H.
    destruct (gk_run (main x y) s3) as [[s4 a]|] eqn:E4; [|discriminate]. apply gk_run_noin in E4; [|apply N].
    pose proof (peq_gk_run _ _ _ (proj1 inputize_both tp x) s4) as Y. rewrite H in Y.
    destruct (gk_run (piter cinputize (leaves tp x)) s4) as [[s5 b]|] eqn:E5; [|contradiction]. destruct Y as [-> _].
    apply gk_inputize in E5. rewrite E5, E4, E3, E1, L. reflexivity.
Qed.
(** Knowing a square root of the public number *)
Definition demo_main (x y : CNum 251) : prog 251 unit := z <-- cmul y y ;; cassert_eq x z.
Lemma demo_noin x y : noin (demo_main x y).
Proof. apply noin_bind; [apply noin_cmul|]. intros z. apply noin_assert_eq. Qed.
Lemma case_C72_prover : (forall x y, noin (demo_main x y)) /\
  exists P u, prove_system (co_synthesize TNum TNum demo_main (Some (num 9)) (Some (num 3))) = Ok (P, u) /\ p_inputs P = [1; num 9] /\ p_aux P = map num [9; 3; 9]%Z.
Proof. split; [exact demo_noin|]. eexists _, _. split; [vm_compute; reflexivity|]. split; reflexivity. Qed.

(** In every satisfying assignment the public variables are the public signals the
    circuit was run on, in the order of get_inputs. *)
Lemma iter_bound {p} (x : list (CNum p)) : forall U tr u, exec U (piter cinputize x) tr (Some u) ->
  forall s, s I0 = 1 -> sat s tr -> map (fun iv => s (fst iv)) (inputs tr) = map (ceval s) x.
Proof.
  unfold piter. induction x as [|c x IH]; intros U tr u; cbn [pfold].
  - intros H s _ _. inversion H; subst. reflexivity.
  - rewrite exec_bind. intros [t1 [t2 [[] [-> [H1 H2]]]]] s Hs Hsat. rewrite inputs_app, map_app.
    rewrite (IH _ _ _ H2 s Hs) by (intros ? ? ? Hin; apply Hsat, in_or_app; auto).
    destruct (inputize_trace _ _ _ _ H1) as [i [v [Ei Ed]]]. rewrite Ei. cbn [map app fst]. f_equal.
    destruct (bound_sat s (t1 ++ t2) [c] (i, v) 0 Hs Hsat) as [c' [X Y]].
    + exists c. split; [reflexivity|]. cbn [fst snd]. destruct Ed as [[A1 [A2 A3]]|[w [A1 [A2 A3]]]]; [left|right; exists w]; repeat split; auto; apply in_or_app; auto.
    + cbn in X. assert (c' = c) as -> by congruence. exact Y.
Qed.
Lemma claim_C72_bound : forall p A tp ts (main : sig p tp -> sig p ts -> prog p A) v w U tr,
  (forall x y, noin (main x y)) -> exec U (co_synthesize tp ts main v w) tr (Some tt) ->
  exists x y t1 t2 t3 t4 a, tr = t1 ++ t2 ++ t3 ++ t4 /\ exec U (s_alloc tp v) t1 (Some x) /\
    exec (vars t2 (vars t1 U)) (main x y) t3 (Some a) /\
    forall s, s I0 = 1 -> sat s tr -> map (fun iv => s (fst iv)) (inputs tr) = map (ceval s) (leaves tp x).
Proof.
  intros p A tp ts main v w U tr N. unfold co_synthesize. rewrite exec_bind. intros [t1 [r1 [x [-> [H1 H]]]]].
  rewrite exec_bind in H. destruct H as [t2 [r2 [y [-> [H2 H]]]]]. rewrite exec_bind in H. destruct H as [t3 [t4 [a [-> [H3 H4]]]]].
  exists x, y, t1, t2, t3, t4, a. repeat split; auto. intros s Hs Hsat.
  destruct (peq_exec _ _ _ (proj1 inputize_both tp x) _ _ _ H4) as [[u|] [H5 X]]; [clear X|contradiction].
  rewrite !inputs_app, (noin_inputs _ _ _ _ (proj1 noin_alloc tp v) H1), (noin_inputs _ _ _ _ (proj1 noin_alloc ts w) H2), (noin_inputs _ _ _ _ (N x y) H3).
  cbn [app]. eapply iter_bound; eauto. intros ? ? ? Hin. apply Hsat. rewrite !in_app_iff. auto.
Qed.
Definition demo_co : prog 251 unit := co_synthesize TNum TNum demo_main (Some (num 9)) (Some (num 3)).
Lemma case_C72_bound : (forall x y, noin (demo_main x y)) /\ exec [I0] demo_co (fst (run 0 demo_co)) (Some tt) /\
  map snd (inputs (fst (run 0 demo_co))) = [Some (num 9)] /\ length (constraints (fst (run 0 demo_co))) = 3%nat.
Proof. split; [exact demo_noin|]. split; [|split; vm_compute; reflexivity]. change (Some tt) with (snd (run 0 demo_co)). apply exec_run. Qed.
(** A public Boolean is not constrained to be zero or one: get_inputs only ever gives
    zero or one, but the constraints hold with any public number in its place. *)
Lemma claim_C72_public_bool_refuted : exists (s : Index -> Num 251) tr i w,
  exec [I0] (co_synthesize TBool TNum (fun _ _ => Ret tt) (Some true) (Some (num 3))) tr (Some tt) /\
  s I0 = 1 /\ sat s tr /\ inputs tr = [(i, w)] /\ s i <> 0 /\ s i <> 1.
Proof.
  pose (m := co_synthesize (p := 251) TBool TNum (fun _ _ => Ret tt) (Some true) (Some (num 3))).
  exists (fun i => match i with Input 0 => 1 | _ => num 5 end), (fst (run 0 m)), (Aux 2), (Some 1).
  split; [change (Some tt) with (snd (run 0 m)); apply exec_run|]. split; [reflexivity|]. split.
  - intros a b c H. destruct H as [H|[H|[H|[H|[]]]]]; try discriminate H.
    assert (X : cvar (Some 1) (Aux 2) = a /\ cone = b /\ cvar (Some 1) (Aux 0) = c) by (injection H; intros <- <- <-; repeat split; reflexivity).
    destruct X as [<- [<- <-]]. vm_compute. reflexivity.
  - split; [reflexivity|]. split; intros X; apply (f_equal nval) in X; vm_compute in X; discriminate X.
Qed.
