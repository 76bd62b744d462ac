(** The systems of the back end against the native functions: a satisfying
    assignment of the system the keys are made for is a run of the native library on
    the public inputs, and on values that the native library accepts the prover's
    assignment satisfies the system, so that the commands end in true. *)

From Verif Require Export EndClaims CircuitClaims.
From Coq Require Import Lia.
Open Scope num_scope.

Section System.
Context {p l : positive} (sqrt : Num p -> option (Num p)) (PP : @PoseidonParams p) (J : JubJub p l).
Notation F := (Num p).

(** [meets] of C80 for a circuit that starts with the registers [R]. *)
Definition meets_after (s : Index -> F) (R : list (CNum p)) (ops : list (@op p)) (Rs : list (list (CNum p))) : Prop :=
  length Rs = length ops /\
  forall k o r, nth_error ops k = Some o -> nth_error Rs k = Some r ->
    let R' := R ++ concat (firstn k Rs) in means sqrt PP J R' (map (ceval s) R') o (map (ceval s) r).
Definition sys_sat (s : Index -> F) (cons : list (lcT p * lcT p * lcT p)) : Prop :=
  Forall (fun abc => match abc with (a, b, c) => leval s a * leval s b = leval s c end) cons.

Lemma sys_sat_trace s (tr : list (event p)) : sys_sat s (constraints tr) <-> sat s tr.
Proof.
  unfold sys_sat, sat, holds, ceval. induction tr as [|[i v|i v|a b c] tr IH]; cbn [constraints].
  - split; [intros _ ? ? ? []|constructor].
  - rewrite IH. split; intros H x y z; [intros [E|Hin]; [discriminate|auto]|intros Hin; apply H; now right].
  - rewrite IH. split; intros H x y z; [intros [E|Hin]; [discriminate|auto]|intros Hin; apply H; now right].
  - split.
    + intros H. inversion H; subst. intros x y z [E|Hin]; [inversion E; subst; auto|]. now apply IH.
    + intros H. constructor; [apply H; now left|]. apply IH. intros x y z Hin. apply H. now right.
Qed.
Lemma sat_app s (t1 t2 : list (event p)) : sat s (t1 ++ t2) <-> sat s t1 /\ sat s t2.
Proof.
  unfold sat. split.
  - intros H. split; intros a b c Hin; apply H; apply in_or_app; auto.
  - intros [H1 H2] a b c Hin. apply in_app_or in Hin. destruct Hin; auto.
Qed.
Lemma honest_app s (t1 t2 : list (event p)) : honest s (t1 ++ t2) <-> honest s t1 /\ honest s t2.
Proof.
  unfold honest. split.
  - intros H. split; intros i v Hin; apply H; rewrite !in_app_iff; tauto.
  - intros [H1 H2] i v Hin. rewrite !in_app_iff in Hin. assert (X : (In (EAlloc i v) t1 \/ In (EInput i v) t1) \/ (In (EAlloc i v) t2 \/ In (EInput i v) t2)) by tauto.
    destruct X; [now apply H1|now apply H2].
Qed.
Lemma vars_app (t1 t2 : list (event p)) : forall U, vars (t1 ++ t2) U = vars t2 (vars t1 U).
Proof. induction t1 as [|[] t1 IH]; intros U; cbn [vars app]; auto. Qed.

Context (H : params_ok sqrt PP J).
Let Hp := j_p _ (k_j _ _ _ H).
Add Field sy_field : (num_field Hp) (morphism (@num_morph p), constants [num_cst], power_tac (@num_power p) [num_pow_cst]).

Lemma owned_cvar U v i : In i U -> owned U (@cvar p v i).
Proof using H.
  intros Hi. unfold owned, cvar; cbn [clc]. split.
  - split; [repeat constructor|]. intros k w Hin Hz. destruct Hin as [E|[]]. exfalso. apply (n1_neq_n0 Hp). congruence.
  - intros k w [E|[]]. inversion E; now subst.
Qed.
Lemma cvar_free v i : i <> I0 -> as_const (@cvar p v i) = None.
Proof. destruct i as [[|n]|n]; cbn; auto. now intros []. Qed.

(** Allocating a list *)
Lemma alloc_trace lv : forall U tr x, In I0 U -> exec U (pmapM (@calloc p) lv) tr (Some x) ->
  length x = length lv /\ Forall (owned (vars tr U)) x /\ Forall (fun c => as_const c = None) x /\ inputs tr = [] /\ forall a b c, ~ In (EEnf a b c) tr.
Proof using H.
  induction lv as [|v lv IH]; intros U tr x H0; cbn [pmapM].
  - intros He. inversion He; subst. split; [reflexivity|]. split; [constructor|]. split; [constructor|]. split; [reflexivity|]. intros a b c [].
  - intros He. apply exec_bind in He. destruct He as [t1 [t2 [c [-> [X1 X2]]]]]. apply exec_bind in X2. destruct X2 as [t3 [t4 [y [-> [X3 X4]]]]].
    inversion X4; subst. unfold calloc in X1. inversion X1; subst. match goal with X : exec _ (Ret _) _ _ |- _ => inversion X; subst end.
    cbn [vars] in X3. destruct (IH (i :: U) t3 y ltac:(now right) X3) as [L [O [N [E EC]]]]. rewrite !app_nil_r. cbn [app vars inputs length]. split; [now rewrite L|]. split; [|split; [|split; [exact E|]]].
    + constructor; [|exact O]. apply owned_cvar, vars_incl. now left.
    + constructor; [|exact N]. apply cvar_free. intros ->. contradiction.
    + intros a b c [Hin|Hin]; [discriminate|exact (EC a b c Hin)].
Qed.
Lemma alloc_panic lv : forall U tr o, exec U (pmapM (@calloc p) lv) tr o -> o <> None.
Proof using Type.
  induction lv as [|v lv IH]; intros U tr o; cbn [pmapM]; intros He; [inversion He; subst; discriminate|].
  apply exec_bind_o in He. destruct He as [t1 [t2 [c [-> [X1 X2]]]]].
  unfold calloc in X1. inversion X1; subst. match goal with X : exec _ (Ret _) _ _ |- _ => inversion X; subst end.
  apply exec_bind_o in X2. destruct X2 as [t3 [t4 [y [-> [X3 X4]]]]]. destruct y as [y|]; [inversion X4; subst; discriminate|].
  exfalso. exact (IH _ _ _ X3 eq_refl).
Qed.
Definition index_eq_dec (i j : Index) : {i = j} + {i <> j}.
Proof. repeat decide equality. Defined.
Definition upd (s : Index -> F) (i : Index) (v : F) : Index -> F := fun j => if index_eq_dec j i then v else s j.
Lemma alloc_values lv : forall U s0 tr x, exec U (pmapM (@calloc p) (map Some lv)) tr (Some x) ->
  exists s, agrees U s0 s /\ honest s tr /\ map (ceval s) x = lv /\ map cvalue x = map Some lv /\ (forall s', sat s' tr).
Proof using Type.
  induction lv as [|v lv IH]; intros U s0 tr x; cbn [pmapM map].
  - intros He. inversion He; subst. exists s0. split; [intros i _; auto|]. split; [intros i v [[]|[]]|]. repeat split. intros s' a b c [].
  - intros He. apply exec_bind in He. destruct He as [t1 [t2 [c [-> [X1 X2]]]]]. apply exec_bind in X2. destruct X2 as [t3 [t4 [y [-> [X3 X4]]]]].
    inversion X4; subst. unfold calloc in X1. inversion X1; subst. match goal with X : exec _ (Ret _) _ _ |- _ => inversion X; subst end.
    cbn [vars] in X3. destruct (IH (i :: U) (upd s0 i v) t3 y X3) as [s [A [B [C [D S]]]]]. rewrite app_nil_r. cbn [app map].
    assert (Ei : s i = v). { rewrite (A i (or_introl eq_refl)). unfold upd. now destruct (index_eq_dec i i). }
    exists s. split; [|split; [|split; [|split]]].
    + intros j Hj. rewrite (A j (or_intror Hj)). unfold upd. destruct (index_eq_dec j i); [subst; contradiction|auto].
    + intros j w [[E|Hin]|[E|Hin]]; [inversion E; subst; auto|apply B; auto|discriminate|apply B; auto].
    + rewrite ceval_var, C, Ei. reflexivity.
    + rewrite D. reflexivity.
    + intros s' a b c [E|Hin]; [discriminate|]. now apply (S s').
Qed.

(** Publishing a list *)
Lemma inputize_values (x : list (CNum p)) : forall U (s0 : Index -> F) tr o, In I0 U -> s0 I0 = 1 -> Forall (owned U) x -> Forall (fun c => as_const c = None) x -> Forall (valued s0) x ->
  exec U (piter cinputize x) tr o -> exists s, agrees U s0 s /\ honest s tr /\ sat s tr /\ o = Some tt.
Proof using H.
  unfold piter. induction x as [|c x IH]; intros U s0 tr o H0 H1 HO HN HV; cbn [pfold]; intros He.
  - inversion He; subst. exists s0. split; [intros i _; auto|]. split; [intros i v [[]|[]]|]. split; [intros a b c []|reflexivity].
  - inversion HO as [|? ? Oc Ox]; inversion HN as [|? ? Nc Nx]; inversion HV as [|? ? Vc Vx]; subst.
    apply exec_bind_o in He. destruct He as [t1 [t2 [oa [-> [X1 X2]]]]].
    unfold cinputize in X1. rewrite Nc in X1. cbn [calloc_input pbind] in X1. inversion X1; subst.
    match goal with X : exec _ (enforce _ _ _) _ _ |- _ => inversion X; subst end. match goal with X : exec _ (Ret _) _ _ |- _ => inversion X; subst end.
    cbn [vars] in X2. set (v := ceval s0 c) in *.
    assert (Ag : agrees U s0 (upd s0 i v)). { intros j Hj. unfold upd. destruct (index_eq_dec j i); [subst; contradiction|auto]. }
    destruct (IH (i :: U) (upd s0 i v) t2 o) as [s [A [B [C D]]]]; auto.
    + now right.
    + rewrite Ag; auto.
    + eapply Forall_impl; [|exact Ox]. intros e. apply owned_incl. intros j; now right.
    + rewrite Forall_forall in Vx, Ox |- *. intros e He. unfold valued. rewrite (Vx e He). f_equal. apply (ceval_ext_owned U); auto. intros j Hj. symmetry. now apply Ag.
    + assert (Ei : s i = v). { rewrite (A i (or_introl eq_refl)). unfold upd. now destruct (index_eq_dec i i). }
      assert (Aa : agrees U s0 s). { intros j Hj. rewrite (A j (or_intror Hj)). now apply Ag. }
      exists s. split; [exact Aa|]. split; [|split; [|exact D]].
      * cbn [app]. intros j w [[E|[E|Hin]]|[E|[E|Hin]]]; try discriminate; [apply B; auto| |apply B; auto]. inversion E; subst. rewrite Ei. exact Vc.
      * cbn [app]. intros a b e [E|[E|Hin]]; [discriminate| |now apply C]. inversion E; subst. unfold holds.
        rewrite ceval_var, ceval_one by (rewrite Aa; auto). rewrite Ei. unfold v. rewrite (ceval_ext_owned U e s0 s) by auto. ring.
Qed.
Lemma owned_cone U : In I0 U -> owned U (@cone p).
Proof using H.
  intros Hi. unfold owned, cone, cconst; cbn [clc]. split.
  - split; [repeat constructor|]. intros k w Hin _. destruct Hin as [E|[]]. congruence.
  - intros k w [E|[]]. inversion E; now subst.
Qed.
Lemma inputize_owned (x : list (CNum p)) : forall U tr o, In I0 U -> Forall (owned U) x -> Forall (fun c => as_const c = None) x ->
  exec U (piter cinputize x) tr (Some o) ->
  forall a b c, In (EEnf a b c) tr -> owned (vars tr U) a /\ owned (vars tr U) b /\ owned (vars tr U) c.
Proof using H.
  unfold piter. revert dependent x. intros x. induction x as [|e x IH]; intros U tr o H0 HO HN; cbn [pfold]; intros He a b c Hin.
  - inversion He; subst. destruct Hin.
  - inversion HO as [|? ? Oc Ox]; inversion HN as [|? ? Nc Nx]; subst.
    apply exec_bind in He. destruct He as [t1 [t2 [oa [-> [X1 X2]]]]].
    unfold cinputize in X1. rewrite Nc in X1. cbn [calloc_input pbind] in X1. inversion X1; subst.
    match goal with X : exec _ (enforce _ _ _) _ _ |- _ => inversion X; subst end. match goal with X : exec _ (Ret _) _ _ |- _ => inversion X; subst end.
    cbn [vars app] in *. assert (I1 : incl (i :: U) (vars t2 (i :: U))) by apply vars_incl.
    destruct Hin as [E|[E|Hin]]; [discriminate| |].
    + inversion E; subst. split; [apply owned_cvar, I1; now left|]. split; [apply owned_cone, I1; now right|].
      eapply owned_incl; [|exact Oc]. intros j Hj. apply I1. now right.
    + eapply (IH (i :: U) t2); eauto; [now right|]. eapply Forall_impl; [|exact Ox]. intros e'. apply owned_incl. intros j; now right.
Qed.

(** A call that draws no witness does not look at the witnesses. *)
Definition no_alloc (o : @op p) : Prop := match o with oAlloc _ | oBAlloc _ => False | _ => True end.
Lemma circuit_wit wit wit' ops : Forall no_alloc ops -> forall R, peq eq (circuit sqrt PP J false wit ops R) (circuit sqrt PP J false wit' ops R).
Proof using Type.
  induction 1 as [|o ops Ho Hops IH]; intros R; cbn [circuit]; [now constructor|].
  assert (E : step sqrt PP J false wit R o = step sqrt PP J false wit' R o) by (destruct o; try reflexivity; destruct Ho).
  rewrite E. eapply peq_bind; [apply peq_refl|]. intros a b <-. apply IH.
Qed.
Lemma circuit_exec_wit wit wit' ops R U tr o : Forall no_alloc ops -> exec U (circuit sqrt PP J false wit ops R) tr o -> exec U (circuit sqrt PP J false wit' ops R) tr o.
Proof using Type.
  intros N He. destruct (peq_exec _ _ _ (circuit_wit wit wit' ops N R) _ _ _ He) as [o' [He' E]].
  destruct o as [a|], o' as [b|]; try contradiction; [now subst|exact He'].
Qed.
(** The registers and constraints of a circuit only mention allocated variables. *)
Lemma circuit_owned wit ops : forall U R tr R', In I0 U -> Forall (owned U) R -> exec U (circuit sqrt PP J false wit ops R) tr (Some R') ->
  Forall (owned (vars tr U)) R' /\ forall a b c, In (EEnf a b c) tr -> owned (vars tr U) a /\ owned (vars tr U) b /\ owned (vars tr U) c.
Proof using H.
  induction ops as [|o ops IH]; intros U R tr R' H0 HR He; cbn [circuit] in He.
  - inversion He; subst. split; [exact HR|intros a b c []].
  - apply exec_bind in He. destruct He as [t1 [t2 [r [-> [X1 X2]]]]]. destruct (step_owned sqrt PP J H wit U R o t1 r H0 HR X1) as [O1 O2].
    destruct (IH (vars t1 U) (R ++ r) t2 R') as [P1 P2]; auto.
    + now apply vars_incl.
    + apply Forall_app. split; auto. eapply Forall_impl; [|exact HR]. intros c. apply owned_incl, vars_incl.
    + rewrite vars_app. split; [exact P1|]. intros a b c Hin. apply in_app_or in Hin. destruct Hin as [Hin|Hin]; [|now apply P2].
      destruct (O2 a b c Hin) as [A [B C]]. pose proof (vars_incl t2 (vars t1 U)) as I. split; [now apply (owned_incl _ _ _ I)|]. split; now apply (owned_incl _ _ _ I).
Qed.
Lemma noin_circuit wit ops : (forall a, ~ In (oInputize a) ops) -> forall R, noin (circuit sqrt PP J false wit ops R).
Proof using Type.
  induction ops as [|o ops IH]; intros HI R; cbn [circuit]; [exact I|].
  apply noin_bind; [apply noin_step; intros a ->; apply (HI a); now left|]. intros r. apply IH. intros a Ha. apply (HI a). now right.
Qed.

(** The system made for the keys *)
Lemma system_sound ops tp ts K u s : (forall a, ~ In (oInputize a) ops) ->
  key_system (co_synthesize tp ts (lib_main sqrt PP J ops tp ts) None None) = Ok (K, u) ->
  s I0 = 1 -> sys_sat s (k_cons K) ->
  exists x y Rs, length x = tsize tp /\ length y = tsize ts /\ Forall (fun c => as_const c = None) (x ++ y) /\
    map (ceval s) x = map (fun i => s (Input i)) (seq 1 (tsize tp)) /\ k_inputs K = (1 + tsize tp)%nat /\
    meets_after s (x ++ y) ops Rs.
Proof using H.
  intros HI HK H1 Hs.
  pose proof (peq_gk_run _ _ _ (flat_none sqrt PP J ops tp ts) keyasm_new) as Y. unfold key_system in HK. rewrite HK in Y.
  destruct (gk_run (flat_main sqrt PP J ops _ _) keyasm_new) as [[K' u']|] eqn:EK; [|contradiction]. destruct Y as [<- _].
  destruct (claim_C62_groth16 p _ (flat_main sqrt PP J ops (repeat None (tsize tp)) (repeat None (tsize ts)))) as [[tr [o [He N]]] G].
  destruct (G tr o He N) as [GK _]. apply GK in EK. destruct EK as [-> ->]. cbn [k_cons k_inputs] in *. clear G GK.
  apply sys_sat_trace in Hs. unfold flat_main in He.
  apply exec_bind in He. destruct He as [t1 [r1 [x [-> [X1 He]]]]]. apply exec_bind in He. destruct He as [t2 [r2 [y [-> [X2 He]]]]].
  apply exec_bind in He. destruct He as [t3 [t4 [R [-> [X3 X4]]]]].
  apply sat_app in Hs. destruct Hs as [S1 Hs]. apply sat_app in Hs. destruct Hs as [S2 Hs]. apply sat_app in Hs. destruct Hs as [S3 S4].
  destruct (alloc_trace _ [I0] t1 x ltac:(now left) X1) as [L1 [O1 [N1 [E1 EC1]]]].
  assert (I1 : In I0 (vars t1 [I0])) by (apply vars_incl; now left).
  destruct (alloc_trace _ (vars t1 [I0]) t2 y I1 X2) as [L2 [O2 [N2 [E2 EC2]]]]. rewrite repeat_length in L1, L2.
  assert (I2 : In I0 (vars t2 (vars t1 [I0]))) by now apply vars_incl.
  assert (O3 : Forall (owned (vars t2 (vars t1 [I0]))) (x ++ y)).
  { apply Forall_app. split; auto. eapply Forall_impl; [|exact O1]. intros c. apply owned_incl, vars_incl. }
  destruct (circuit_sound sqrt PP J H (fun _ => None) ops _ _ _ _ s I2 O3 X3 H1 S3) as [Rs [ER [M _]]].
  destruct (meets_from_ok sqrt PP J s ops _ _ M) as [LM MM].
  pose proof (iter_bound x _ _ _ X4 s H1 S4) as B.
  assert (E3 : inputs t3 = []). { eapply noin_inputs; [|exact X3]. now apply noin_circuit. }
  assert (KI : length (inputs t4) = tsize tp). { rewrite <- L1, <- (map_length (ceval s) x), <- B. now rewrite map_length. }
  exists x, y, Rs. split; [exact L1|]. split; [exact L2|]. split; [apply Forall_app; auto|].
  destruct N as [N _]. rewrite !inputs_app, E1, E2, E3 in N |- *. cbn [app] in N |- *. rewrite KI in N |- *.
  split; [|split; [reflexivity|split; [exact LM|exact MM]]]. rewrite <- B.
  transitivity (map s (map fst (inputs t4))); [now rewrite map_map|]. rewrite N, map_map. reflexivity.
Qed.

(** The prover's system *)
Definition natively (ops : list (@op p)) (vp vs : list F) : Prop := forall k o x y U tr Rs s,
  nth_error ops k = Some o -> Forall (fun c => as_const c = None) (x ++ y) ->
  s I0 = 1 -> map (ceval s) x = vp -> map (ceval s) y = vs ->
  exec U (circuit sqrt PP J false (fun _ => None) (firstn k ops) (x ++ y)) tr (Some ((x ++ y) ++ concat Rs)) -> sat s tr ->
  meets_after s (x ++ y) (firstn k ops) Rs ->
  ready sqrt PP J ((x ++ y) ++ concat Rs) (map (ceval s) ((x ++ y) ++ concat Rs)) o.

Lemma firstn_forall {A} (P : A -> Prop) k l0 : Forall P l0 -> Forall P (firstn k l0).
Proof. rewrite !Forall_forall. intros X a Ha. apply X. rewrite <- (firstn_skipn k l0). apply in_or_app. now left. Qed.
Lemma honest_vals (tr : list (event p)) s : honest s tr ->
  map snd (inputs tr) = map Some (map s (map fst (inputs tr))) /\ map snd (auxs tr) = map Some (map s (map fst (auxs tr))).
Proof using Type.
  unfold honest. induction tr as [|[i v|i v|a b c] tr IH]; cbn [inputs auxs map fst snd]; intros Hh.
  - auto.
  - destruct IH as [A B]; [intros j w [Hin|Hin]; apply Hh; [left|right]; now right|]. split; auto. rewrite B. f_equal. apply Hh. left. now left.
  - destruct IH as [A B]; [intros j w [Hin|Hin]; apply Hh; [left|right]; now right|]. split; auto. rewrite A. f_equal. apply Hh. right. now left.
  - apply IH. intros j w [Hin|Hin]; apply Hh; [left|right]; now right.
Qed.
Lemma vars_split (tr : list (event p)) : forall U i, In i (vars tr U) -> In i U \/ In i (map fst (inputs tr)) \/ In i (map fst (auxs tr)).
Proof using Type.
  induction tr as [|[j v|j v|a b c] tr IH]; intros U i; cbn [vars inputs auxs map fst]; auto; intros Hi; apply IH in Hi; cbn [In] in *; tauto.
Qed.
Lemma nth_map_seq {A} (f : nat -> A) a n k d : (k < n)%nat -> nth k (map f (seq a n)) d = f (a + k)%nat.
Proof. intros Hk. rewrite (nth_indep _ d (f 0%nat)) by now rewrite map_length, seq_length. rewrite map_nth, seq_nth by exact Hk. reflexivity. Qed.

(** The circuit finds its witnesses when its numbers have the values [vp] and [vs]. *)
Definition fills (ops : list (@op p)) (vp vs : list F) : Prop := forall U x y s0 tr o,
  In I0 U -> s0 I0 = 1 -> Forall (owned U) (x ++ y) -> Forall (valued s0) (x ++ y) -> Forall (fun c => as_const c = None) (x ++ y) ->
  map (ceval s0) x = vp -> map (ceval s0) y = vs -> exec U (circuit sqrt PP J false (fun _ => None) ops (x ++ y)) tr o ->
  exists s R, agrees U s0 s /\ honest s tr /\ sat s tr /\ o = Some R.
Lemma native_fills ops vp vs : Forall no_alloc ops -> natively ops vp vs -> fills ops vp vs.
Proof using H.
  intros NA HN U2 x y s2 t3 oR I2 S2 O3 V2 N Ex Ey X3. apply Forall_app in O3. destruct O3 as [O1 O2].
  destruct (circuit_complete sqrt PP J H (fun _ => Some 1) ops ltac:(discriminate) U2 (x ++ y) s2 I2 S2 ltac:(now apply Forall_app) V2) with (tr := t3) (o := oR) as [s3 [R [C1 [C2 [C3 ->]]]]].
  - intros k op tr1 Rs s Ek Ex1 Ag Hh Hs M _. apply (HN k op x y U2 tr1 Rs s Ek); auto.
    + rewrite Ag; auto.
    + rewrite <- Ex. apply map_ext_in. intros c Hc. rewrite Forall_forall in O1. apply (ceval_ext_owned U2); [auto|exact Ag].
    + rewrite <- Ey. apply map_ext_in. intros c Hc. rewrite Forall_forall in O2. apply (ceval_ext_owned U2); [auto|exact Ag].
    + eapply circuit_exec_wit; [|exact Ex1]. now apply firstn_forall.
    + destruct (meets_from_ok sqrt PP J s _ _ _ M) as [LM MM]. split; [exact LM|exact MM].
  - eapply circuit_exec_wit; [exact NA|exact X3].
  - exists s3, R. auto.
Qed.
Lemma flat_complete ops vp vs tr o : fills ops vp vs ->
  exec [I0] (flat_main sqrt PP J ops (map Some vp) (map Some vs)) tr o ->
  exists s, s I0 = 1 /\ honest s tr /\ sat s tr /\ o = Some tt /\
    (forall a b c, In (EEnf a b c) tr -> owned (vars tr [I0]) a /\ owned (vars tr [I0]) b /\ owned (vars tr [I0]) c) /\
    ((forall a, ~ In (oInputize a) ops) -> map s (map fst (inputs tr)) = vp).
Proof using H.
  intros HF He. unfold flat_main in He.
  apply exec_bind_o in He. destruct He as [t1 [r1 [ox [-> [X1 He]]]]]. destruct ox as [x|]; [|exfalso; exact (alloc_panic _ _ _ _ X1 eq_refl)].
  apply exec_bind_o in He. destruct He as [t2 [r2 [oy [-> [X2 He]]]]]. destruct oy as [y|]; [|exfalso; exact (alloc_panic _ _ _ _ X2 eq_refl)].
  destruct (alloc_trace _ [I0] t1 x ltac:(now left) X1) as [L1 [O1 [N1 [E1 EC1]]]].
  assert (I1 : In I0 (vars t1 [I0])) by (apply vars_incl; now left).
  destruct (alloc_trace _ (vars t1 [I0]) t2 y I1 X2) as [L2 [O2 [N2 [E2 EC2]]]].
  set (U1 := vars t1 [I0]) in *. set (U2 := vars t2 U1) in *.
  assert (I2 : In I0 U2) by now apply vars_incl.
  assert (O3 : Forall (owned U2) (x ++ y)).
  { apply Forall_app. split; auto. eapply Forall_impl; [|exact O1]. intros c. apply owned_incl, vars_incl. }
  destruct (alloc_values vp [I0] (fun _ => 1) t1 x X1) as [s1 [A1 [A2 [A3 [A4 A5]]]]].
  destruct (alloc_values vs U1 s1 t2 y X2) as [s2 [B1 [B2 [B3 [B4 B5]]]]].
  assert (S2 : s2 I0 = 1) by (rewrite B1, A1; auto; now left).
  assert (Ex : map (ceval s2) x = vp).
  { rewrite <- A3. apply map_ext_in. intros c Hc. rewrite Forall_forall in O1. apply (ceval_ext_owned U1); auto. }
  assert (Hh1 : honest s2 t1).
  { intros i v Hin. rewrite (A2 i v Hin). f_equal. symmetry. apply B1. exact (vars_in t1 [I0] i v Hin). }
  assert (V2 : Forall (valued s2) (x ++ y)).
  { apply Forall_app. unfold valued. split.
    - clear - Ex A4. revert vp Ex A4. induction x as [|c x IH]; intros [|v vp]; cbn; try discriminate; constructor; [congruence|]. apply (IH vp); congruence.
    - clear - B3 B4. revert vs B3 B4. induction y as [|c y IH]; intros [|v vs]; cbn; try discriminate; constructor; [congruence|]. apply (IH vs); congruence. }
  apply exec_bind_o in He. destruct He as [t3 [t4 [oR [-> [X3 X4]]]]].
  destruct (HF U2 x y s2 t3 oR I2 S2 O3 V2 ltac:(now apply Forall_app) Ex B3 X3) as [s3 [R [C1 [C2 [C3 ->]]]]].
  set (U3 := vars t3 U2) in *. assert (I3 : In I0 U3) by now apply vars_incl.
    assert (S3 : s3 I0 = 1) by (rewrite C1; auto).
    destruct (circuit_owned _ ops U2 (x ++ y) t3 R I2 O3 X3) as [_ O4].
    assert (O5 : Forall (owned U3) x). { eapply Forall_impl; [|exact O1]. intros c Hc. apply (owned_incl U2); [apply vars_incl|]. apply (owned_incl U1); [apply vars_incl|auto]. }
    assert (V3 : Forall (valued s3) x).
    { apply Forall_app in V2. destruct V2 as [V2 _]. rewrite Forall_forall in V2, O1 |- *. intros c Hc. unfold valued. rewrite (V2 c Hc). f_equal. symmetry.
      apply (ceval_ext_owned U2); [apply (owned_incl U1); [apply vars_incl|auto]|exact C1]. }
    destruct (inputize_values x U3 s3 t4 o I3 S3 O5 N1 V3 X4) as [s4 [D1 [D2 [D3 ->]]]].
    exists s4. split; [rewrite D1; auto|].
    assert (Back : forall i, In i U2 -> s4 i = s2 i). { intros i Hi. rewrite D1 by now apply vars_incl. now apply C1. }
    split; [|split; [|split; [reflexivity|split]]].
    + apply honest_app. split; [|apply honest_app; split; [|apply honest_app; split; [|exact D2]]].
      * intros i v Hin. rewrite (Hh1 i v Hin). f_equal. symmetry. apply Back. apply vars_incl. exact (vars_in t1 [I0] i v Hin).
      * intros i v Hin. rewrite (B2 i v Hin). f_equal. symmetry. apply Back. exact (vars_in t2 U1 i v Hin).
      * intros i v Hin. rewrite (C2 i v Hin). f_equal. symmetry. apply D1. exact (vars_in t3 U2 i v Hin).
    + apply sat_app. split; [apply A5|]. apply sat_app. split; [apply B5|]. apply sat_app. split; [|exact D3].
      intros a b c Hin. destruct (O4 a b c Hin) as [Oa [Ob Oc]]. unfold holds. rewrite !(ceval_ext_owned U3 _ s3 s4) by auto. now apply C3.
    + rewrite !vars_app. fold U1 U2 U3. intros a b c Hin. rewrite !in_app_iff in Hin. destruct Hin as [Hin|[Hin|[Hin|Hin]]].
      * destruct (EC1 a b c Hin).
      * destruct (EC2 a b c Hin).
      * destruct (O4 a b c Hin) as [Oa [Ob Oc]]. pose proof (vars_incl t4 U3) as I. split; [now apply (owned_incl _ _ _ I)|]. split; now apply (owned_incl _ _ _ I).
      * exact (inputize_owned x U3 t4 tt I3 O5 N1 X4 a b c Hin).
    + intros HI. rewrite !inputs_app, E1, E2, (noin_inputs _ _ _ _ (noin_circuit _ ops HI _) X3). cbn [app]. rewrite map_map.
      rewrite (iter_bound x _ _ _ X4 s4 ltac:(rewrite D1; auto) D3), <- Ex. apply map_ext_in. intros c Hc. rewrite Forall_forall in O1.
      apply (ceval_ext_owned U2); [apply (owned_incl U1); [apply vars_incl|auto]|exact Back].
Qed.
End System.

(* C81 *)
(** Every assignment satisfying the system the keys are made for is a run of the native
    library: its public inputs are the numbers [x] of the public value, [y] are the
    numbers of some secret value, and every call means what the native function says. *)
Lemma claim_C81_sound : forall (p l : positive) (sqrt : Num p -> option (Num p)) (PP : @PoseidonParams p) (J : JubJub p l) ops tp ts K u s, params_ok sqrt PP J ->
  (forall a, ~ In (oInputize a) ops) ->
  key_system (co_synthesize tp ts (lib_main sqrt PP J ops tp ts) None None) = Ok (K, u) ->
  s I0 = 1 -> sys_sat s (k_cons K) ->
  exists x y Rs, length x = tsize tp /\ length y = tsize ts /\ Forall (fun c => as_const c = None) (x ++ y) /\
    map (ceval s) x = map (fun i => s (Input i)) (seq 1 (tsize tp)) /\ k_inputs K = (1 + tsize tp)%nat /\
    meets_after sqrt PP J s (x ++ y) ops Rs.
Proof. intros p l sqrt PP J ops tp ts K u s H. exact (system_sound sqrt PP J H ops tp ts K u s). Qed.

(** On values that every native call accepts the prover runs, its public inputs are the
    numbers of the public value and its assignment satisfies its system. *)
Lemma claim_C81_complete : forall (p l : positive) (sqrt : Num p -> option (Num p)) (PP : @PoseidonParams p) (J : JubJub p l) ops tp ts v w, params_ok sqrt PP J ->
  (forall a, ~ In (oInputize a) ops) -> Forall no_alloc ops -> vsized tp v -> vsized ts w ->
  natively sqrt PP J ops (vleaves tp v) (vleaves ts w) ->
  exists P u, prove_system (co_synthesize tp ts (lib_main sqrt PP J ops tp ts) (Some v) (Some w)) = Ok (P, u) /\
    p_inputs P = 1 :: vleaves tp v /\ asm_sat P.
Proof.
  intros p l sqrt PP J ops tp ts v w H HI NA V W HN.
  destruct (claim_C62_groth16 p _ (flat_main sqrt PP J ops (map Some (vleaves tp v)) (map Some (vleaves ts w)))) as [[tr [o [He N]]] G].
  destruct (flat_complete sqrt PP J H ops _ _ tr o (native_fills sqrt PP J H ops _ _ NA HN) He) as [s [S1 [Hh [Hs [-> [HO _]]]]]].
  destruct (G tr _ He N) as [_ [GP _]]. destruct (honest_vals tr s Hh) as [E1 E2].
  set (P := Backends.mkP (1 :: map s (map fst (inputs tr))) (map s (map fst (auxs tr))) (constraints tr)).
  assert (EP : prove_system (flat_main sqrt PP J ops (map Some (vleaves tp v)) (map Some (vleaves ts w))) = Ok (P, tt)).
  { apply GP. split; [reflexivity|]. eexists _, _. split; [exact E1|]. split; [exact E2|reflexivity]. }
  pose proof (peq_gp_run _ _ _ (flat_some sqrt PP J ops tp ts v w V W) proveasm_new) as X. unfold prove_system in *. rewrite EP in X.
  destruct (gp_run (co_synthesize tp ts _ _ _) proveasm_new) as [[P' u]|] eqn:EQ; [|contradiction]. destruct X as [-> _].
  exists P, u. split; [reflexivity|]. split.
  - destruct (proj1 (claim_C72_prover p _ tp ts (lib_main sqrt PP J ops tp ts) v w (noin_lib sqrt PP J ops tp ts HI)) P u EQ) as [l0 [_ [-> E]]]. exact E.
  - unfold asm_sat. cbn [p_cons P]. apply (sys_sat_trace (asg P) tr). destruct N as [N1 N2].
    assert (A : forall i, In i (vars tr [I0]) -> asg P i = s i).
    { intros i Hi. destruct (vars_split tr [I0] i Hi) as [[<-|[]]|[Hin|Hin]].
      - cbn. symmetry. exact S1.
      - rewrite N1 in Hin. apply in_map_iff in Hin. destruct Hin as [n [<- Hn]]. apply in_seq in Hn. destruct n as [|n]; [lia|].
        unfold asg, P; cbn [p_inputs nth]. rewrite N1, map_map, (nth_map_seq (fun x => s (Input x))) by lia. f_equal.
      - rewrite N2 in Hin. apply in_map_iff in Hin. destruct Hin as [n [<- Hn]]. apply in_seq in Hn.
        unfold asg, P; cbn [p_aux]. rewrite N2, map_map, (nth_map_seq (fun x => s (Aux x))) by lia. reflexivity. }
    intros a b c Hin. destruct (HO a b c Hin) as [Oa [Ob Oc]]. unfold holds. rewrite !(ceval_ext_owned (vars tr [I0]) _ s (asg P)) by auto. now apply Hs.
Qed.

(** The commands: on values that every native call accepts, setup, test data, prove and
    verify end in true, if the back end is complete. *)
Lemma claim_C81_session : forall (E : Engine) p l sqrt PP (J : JubJub p l) (B : Bellman E p) (Fm : Format (eG1 E) (eG2 E) p) ops tp ts
    obj_print obj_parse ok_vk ok_pf ok_in params_first o_params o_vk o_object o_proof o_inputs r r' d v w,
  let main := lib_main sqrt PP J ops tp ts in
  params_ok sqrt PP J -> bellman_complete B -> (forall x, b_read B (b_write B x) = Some x) -> (forall x, obj_parse (obj_print x) = Some x) ->
  format_ok Fm ok_vk ok_pf ok_in -> Forall limits ops -> (forall a, ~ In (oInputize a) ops) -> Forall no_alloc ops ->
  o_params <> o_vk -> o_params <> o_object -> o_vk <> o_object -> o_vk <> o_proof -> o_vk <> o_inputs -> o_proof <> o_inputs ->
  vsized tp v -> vsized ts w -> natively sqrt PP J ops (vleaves tp v) (vleaves ts w) ->
  exists K P u u', key_system (co_synthesize tp ts main None None) = Ok (K, u) /\ prove_system (co_synthesize tp ts main (Some v) (Some w)) = Ok (P, u') /\
  forall params pf, b_generate B K r = Some params -> b_prove B P params r' = Some pf ->
  ok_vk (truncate_verifying_key (b_vk B params)) -> ok_pf pf -> ok_in (vleaves tp v) ->
  exists d1 d3, cli_setup B Fm tp ts main params_first o_params o_vk r d = Ok d1 /\
    cli_prove B Fm tp ts main obj_parse o_params o_object o_proof o_inputs r' (cli_generate_test_data tp ts obj_print (v, w) o_object d1) = Ok d3 /\
    cli_verify (E := E) Fm o_vk o_proof o_inputs d3 = Ok true.
Proof.
  intros E p l sqrt PP J B Fm ops tp ts obj_print obj_parse ok_vk ok_pf ok_in params_first o_params o_vk o_object o_proof o_inputs r r' d v w main
    H HB HR HO HF HL HI NA D1 D2 D3 D4 D5 D6 V W HN.
  destruct (claim_C81_complete p l sqrt PP J ops tp ts v w H HI NA V W HN) as [P [u [HP [_ HA]]]].
  assert (Hn : (2 <= num_bits p)%nat) by (pose proof (l_bits J (k_j _ _ _ H) (k_8 _ _ _ H) (k_bits _ _ _ H)); pose proof (k_bits _ _ _ H); lia).
  destruct (claim_C75_library E p l sqrt PP J B Fm ops tp ts obj_print obj_parse ok_vk ok_pf ok_in params_first o_params o_vk o_object o_proof o_inputs
    r r' d v w P u HB HR HO HF Hn HL HI D1 D2 D3 D4 D5 D6 HP HA) as [K [u' [HK X]]].
  exists K, P, u', u. split; [exact HK|]. split; [exact HP|]. exact X.
Qed.

(** What a [true] of cli_verify says: take the verifying key file that setup wrote, and any
    proof and inputs files. If the accepted proof is one from which an assignment satisfying
    the system with those public inputs can be had (the knowledge assumption on the
    pairing-based scheme, for this proof), the native statement holds of the inputs in the file. *)
Lemma claim_C81_verified : forall (E : Engine) p l sqrt PP (J : JubJub p l) (B : Bellman E p) (Fm : Format (eG1 E) (eG2 E) p) ops tp ts
    ok_vk ok_pf ok_in params_first o_params o_vk o_proof o_inputs r d d1 d2,
  let main := lib_main sqrt PP J ops tp ts in
  params_ok sqrt PP J -> format_ok Fm ok_vk ok_pf ok_in -> (forall a, ~ In (oInputize a) ops) -> o_params <> o_vk ->
  cli_setup B Fm tp ts main params_first o_params o_vk r d = Ok d1 -> d2 o_vk = d1 o_vk ->
  cli_verify (E := E) Fm o_vk o_proof o_inputs d2 = Ok true ->
  exists K u params, key_system (co_synthesize tp ts main None None) = Ok (K, u) /\ b_generate B K r = Some params /\
  (ok_vk (truncate_verifying_key (b_vk B params)) ->
  exists pb ib pf ins, d2 o_proof = Some pb /\ f_proof_read Fm pb = Ok pf /\ d2 o_inputs = Some ib /\ f_inputs_read Fm ib = Ok ins /\
    verify E (truncate_verifying_key (b_vk B params)) pf ins = Ok (Some true) /\
    forall s, s I0 = 1 -> map (fun i => s (Input i)) (seq 1 (k_inputs K - 1)) = ins -> sys_sat s (k_cons K) ->
    exists x y Rs, length y = tsize ts /\ Forall (fun c => as_const c = None) (x ++ y) /\ map (ceval s) x = ins /\ length ins = tsize tp /\
      meets_after sqrt PP J s (x ++ y) ops Rs).
Proof.
  intros E p l sqrt PP J B Fm ops tp ts ok_vk ok_pf ok_in params_first o_params o_vk o_proof o_inputs r d d1 d2 main H HF HI D HS HD HV.
  unfold cli_setup, generate_keys in HS.
  destruct (key_system (co_synthesize tp ts main None None)) as [[K u]|] eqn:EK; [|discriminate HS]. cbn [rbind fst] in HS.
  destruct (b_generate B K r) as [params|] eqn:EG; [|discriminate HS]. cbn [rbind unwrap] in HS.
  exists K, u, params. split; [reflexivity|]. split; [exact EG|]. intros OV.
  destruct HF as [F1 [_ _]]. destruct (F1 _ OV) as [b [W1 W2]]. rewrite W1 in HS. cbn [rbind] in HS.
  assert (EV : d2 o_vk = Some b).
  { rewrite HD. destruct params_first; inversion HS; subst; [apply fs_same|rewrite fs_other by (intros X; apply D; congruence); apply fs_same]. }
  unfold cli_verify, fs_read in HV. rewrite EV in HV. cbn [unwrap rbind] in HV.
  destruct (d2 o_proof) as [pb|] eqn:E1; [|discriminate HV]. cbn [unwrap rbind] in HV.
  destruct (d2 o_inputs) as [ib|] eqn:E2; [|discriminate HV]. cbn [unwrap rbind] in HV. rewrite W2 in HV. cbn [rbind] in HV.
  destruct (f_proof_read Fm pb) as [pf|] eqn:E3; [|discriminate HV]. cbn [rbind] in HV.
  destruct (f_inputs_read Fm ib) as [ins|] eqn:E4; [|discriminate HV]. cbn [rbind] in HV.
  destruct (verify E _ pf ins) as [[[|]|]|] eqn:E5; try discriminate HV. 
  exists pb, ib, pf, ins. do 5 (split; [reflexivity || assumption|]).
  intros s S1 SI SS. destruct (system_sound sqrt PP J H ops tp ts K u s HI EK S1 SS) as [x [y [Rs [L1 [L2 [N [EX [EI M]]]]]]]].
  exists x, y, Rs. rewrite EI in SI. cbn [Nat.add Nat.sub] in SI. rewrite Nat.sub_0_r in SI. split; [exact L2|]. split; [exact N|].
  split; [congruence|]. split; [|exact M]. rewrite <- SI, map_length, seq_length. reflexivity.
Qed.

(** Statements: what the public inputs of a system have to satisfy, and nothing else. *)
Definition statement {p} (ops : list (@op p)) {l} sqrt PP (J : JubJub p l) (tp ts : sty) (pub : list (Num p)) : Prop :=
  exists K u s, key_system (co_synthesize tp ts (lib_main sqrt PP J ops tp ts) None None) = Ok (K, u) /\ s I0 = 1 /\
    map (fun i => s (Input i)) (seq 1 (k_inputs K - 1)) = pub /\ sys_sat s (k_cons K).
Lemma statement_sound {p l} sqrt PP (J : JubJub p l) ops tp ts pub : params_ok sqrt PP J -> (forall a, ~ In (oInputize a) ops) ->
  statement ops sqrt PP J tp ts pub -> exists s x y Rs, map (ceval s) x = pub /\ length x = tsize tp /\ length y = tsize ts /\
    Forall (fun c => as_const c = None) (x ++ y) /\ meets_after sqrt PP J s (x ++ y) ops Rs.
Proof.
  intros H HI [K [u [s [HK [S1 [EP SS]]]]]]. destruct (system_sound sqrt PP J H ops tp ts K u s HI HK S1 SS) as [x [y [Rs [L1 [L2 [N [EX [EI M]]]]]]]].
  exists s, x, y, Rs. rewrite EI in EP. cbn [Nat.add Nat.sub] in EP. rewrite Nat.sub_0_r in EP. split; [congruence|]. auto.
Qed.
Lemma statement_complete {p l} sqrt PP (J : JubJub p l) ops tp ts v w : params_ok sqrt PP J -> (forall a, ~ In (oInputize a) ops) ->
  Forall no_alloc ops -> Forall limits ops -> vsized tp v -> vsized ts w -> natively sqrt PP J ops (vleaves tp v) (vleaves ts w) ->
  statement ops sqrt PP J tp ts (vleaves tp v).
Proof.
  intros H HI NA HL V W HN. destruct (claim_C81_complete p l sqrt PP J ops tp ts v w H HI NA V W HN) as [P [u [HP [EI HA]]]].
  assert (Hn : (2 <= num_bits p)%nat) by (pose proof (l_bits J (k_j _ _ _ H) (k_8 _ _ _ H) (k_bits _ _ _ H)); pose proof (k_bits _ _ _ H); lia).
  destruct (lib_keys sqrt PP J ops tp ts v w P u Hn HL HP) as [K [u' [HK [E1 [E2 E3]]]]].
  exists K, u', (asg P). split; [exact HK|]. split; [unfold asg; cbn; now rewrite EI|]. split.
  - rewrite E1, EI. cbn [length Nat.sub]. rewrite Nat.sub_0_r. unfold asg. rewrite EI. rewrite <- seq_shift, map_map. cbn [nth].
    generalize (vleaves tp v) as q. intros q. induction q as [|a q IH]; cbn [length seq map nth]; auto. f_equal. rewrite <- seq_shift, map_map. exact IH.
  - unfold sys_sat. rewrite E3. exact HA.
Qed.
(** Knowing a preimage of the public number under Poseidon: the public inputs for which the
    system of [end_ops] can be satisfied are exactly the hashes. *)
Definition preimage_ops {p} : list (@op p) := [oPoseidon [1]; oAssertEq 0 2]%nat.
Lemma preimage_native {p l} sqrt PP (J : JubJub p l) h x : params_ok sqrt PP J -> poseidon PP [x] = Ok h -> natively sqrt PP J preimage_ops [h] [x].
Proof.
    intros H E. intros k o a b U tr Rs s Ek N S1 Ea Eb He Hs [LM M]. pose proof (k_t _ _ _ H) as Ht.
    destruct a as [|a [|? ?]]; try discriminate Ea. destruct b as [|b [|? ?]]; try discriminate Eb. cbn [map] in Ea, Eb. assert (Ea' : ceval s a = h) by congruence. assert (Eb' : ceval s b = x) by congruence.
    destruct k as [|[|[|k]]]; cbn [preimage_ops nth_error] in Ek; try discriminate Ek; inversion Ek; subst o; cbn [firstn length preimage_ops] in LM.
    + destruct Rs; [|discriminate LM]. split; cbn [args ready app concat length]; [repeat constructor; lia|lia].
    + destruct Rs as [|r0 [|? ?]]; try discriminate LM.
      pose proof (M 0%nat _ r0 eq_refl eq_refl) as M0. cbn [firstn concat] in M0. cbv zeta in M0. cbn [means] in M0. cbv zeta in M0. cbn [map nth app] in M0. destruct M0 as [q [Q1 Q2]].
      assert (L : length r0 = 1%nat) by (rewrite <- (map_length (ceval s)), Q2; reflexivity).
      split; cbn [args ready]; [rewrite !app_length; cbn [concat]; rewrite app_nil_r, L; cbn; repeat constructor; lia|].
      rewrite map_app. cbn [concat]. rewrite app_nil_r, Q2. cbn [app map nth]. rewrite Eb', E in Q1. congruence.
Qed.
Lemma claim_C81_preimage : forall (p l : positive) (sqrt : Num p -> option (Num p)) (PP : @PoseidonParams p) (J : JubJub p l) h, params_ok sqrt PP J ->
  statement preimage_ops sqrt PP J TNum TNum [h] <-> exists x, poseidon PP [x] = Ok h.
Proof.
  intros p l sqrt PP J h H.
  assert (HI : forall a, ~ In (oInputize (p := p) a) preimage_ops) by (intros a [X|[X|[]]]; discriminate).
  split.
  - intros St. destruct (statement_sound sqrt PP J _ _ _ _ H HI St) as [s [x [y [Rs [E1 [L1 [L2 [N [LM M]]]]]]]]].
    destruct x as [|x [|? ?]]; try discriminate E1. destruct y as [|y [|? ?]]; try discriminate L2.
    destruct Rs as [|r0 [|r1 [|? ?]]]; try discriminate LM. cbn [map] in E1. assert (Ex : ceval s x = h) by congruence.
    pose proof (M 0%nat _ r0 eq_refl eq_refl) as M0. cbn [firstn concat] in M0. cbv zeta in M0. cbn [means] in M0. cbv zeta in M0. cbn [map nth app] in M0. destruct M0 as [q [Q1 Q2]].
    pose proof (M 1%nat _ r1 eq_refl eq_refl) as M1. cbn [firstn concat] in M1. cbv zeta in M1. cbn [means] in M1. cbv zeta in M1. rewrite app_nil_r in M1.
    cbn [app map nth] in M1. rewrite Q2 in M1. cbn [nth] in M1. destruct M1 as [_ M1]. exists (ceval s y). rewrite Q1. f_equal. congruence.
  - intros [x E]. apply (statement_complete sqrt PP J preimage_ops TNum TNum h x H HI); [repeat constructor|repeat constructor|exact I|exact I|]. now apply preimage_native.
Qed.
Lemma system_inputs {p l} sqrt PP (J : JubJub p l) (H : params_ok sqrt PP J) ops tp ts K u : (forall a, ~ In (oInputize a) ops) ->
  key_system (co_synthesize tp ts (lib_main sqrt PP J ops tp ts) None None) = Ok (K, u) -> exists m, k_inputs K = S m.
Proof.
  intros _ HK. destruct (claim_C62_groth16 p _ (co_synthesize tp ts (lib_main sqrt PP J ops tp ts) None None)) as [[tr [o [He N]]] G].
  destruct (G tr o He N) as [GK _]. apply GK in HK. destruct HK as [_ ->]. cbn. eauto.
Qed.
Lemma case_C81_preimage : exists J P, jubjub_bn sqrt_search = Ok J /\ pp_new 64 true 4 8 54 = Ok (Some P) /\ params_ok sqrt_search P J.
Proof. exact (claim_C80_library sqrt_search (sqrt_search_ok _)). Qed.

(** Knowing a leaf of the tree of depth [n] with the public root: the path bits are asserted to be
    bits, since allocating them does not do it. *)
Definition member_ops {p} (n : nat) : list (@op p) :=
  map (fun i => oBAssert i) (seq (2 + n) n) ++ [oMerkleProof 1 (seq 2 n) (seq (2 + n) n); oAssertEq 0 (2 + n + n)].
Definition member_ty (n : nat) : sty := TProd (TCons TNum (TCons (TVec n TNum) (TCons (TVec n TBool) TNil))).
Lemma block {A} (V X Y Z : list A) d : V = X ++ Y ++ Z -> map (fun i => nth i V d) (seq (length X) (length Y)) = Y.
Proof.
  intros ->. revert X. induction Y as [|y Y IH]; intros X; cbn [length seq map]; auto. f_equal.
  - rewrite app_nth2, Nat.sub_diag by lia. reflexivity.
  - specialize (IH (X ++ [y])). rewrite app_length, Nat.add_1_r, <- app_assoc in IH. exact IH.
Qed.
Lemma list_split {A} (l : list A) n m : length l = (n + m)%nat -> exists a b, l = a ++ b /\ length a = n /\ length b = m.
Proof. intros E. exists (firstn n l), (skipn n l). rewrite firstn_skipn, firstn_length, skipn_length. split; auto. lia. Qed.
Lemma firstn_snoc {A} (l : list A) : forall k a, nth_error l k = Some a -> firstn (S k) l = firstn k l ++ [a].
Proof. induction l as [|b l IH]; intros [|k] a E; try discriminate E; cbn [nth_error] in E; [cbn; congruence|]. change (firstn (S (S k)) (b :: l)) with (b :: firstn (S k) l). rewrite (IH k a E). reflexivity. Qed.
Lemma nth_firstn {A} (l : list A) : forall m j, (j < m)%nat -> nth_error (firstn m l) j = nth_error l j.
Proof. induction l as [|b l IH]; intros [|m] [|j] Hj; cbn; auto; try lia. apply IH. lia. Qed.
(** The asserted bits of a run of [member_ops] *)
Lemma member_bits {p l} sqrt PP (J : JubJub p l) n s (x leaf : CNum p) sib path k Rs : length sib = n -> length path = n -> (k <= n)%nat ->
  meets_after sqrt PP J s ([x] ++ leaf :: sib ++ path) (firstn k (member_ops n)) Rs ->
  concat Rs = [] /\ exists b, map (ceval s) (firstn k path) = map nbool b.
Proof.
  intros L1 L2. revert Rs. induction k as [|k IH]; intros Rs Hk [L M].
  - destruct Rs; [|discriminate L]. split; [reflexivity|]. now exists [].
  - assert (E0 : nth_error (member_ops (p := p) n) k = Some (oBAssert (2 + n + k))).
    { unfold member_ops. rewrite nth_error_app1 by (rewrite map_length, seq_length; lia). rewrite nth_error_map.
      rewrite (nth_error_nth' _ 0%nat) by (rewrite seq_length; lia). rewrite seq_nth by lia. reflexivity. }
    assert (E1 : firstn (S k) (member_ops (p := p) n) = firstn k (member_ops n) ++ [oBAssert (2 + n + k)]).
    { now apply firstn_snoc. }
    assert (Lk : length (firstn k (member_ops (p := p) n)) = k).
    { apply firstn_length_le. assert (nth_error (member_ops (p := p) n) k <> None) as X by congruence. apply nth_error_Some in X. lia. }
    rewrite E1 in L, M. rewrite app_length, Lk in L. cbn [length] in L.
    destruct (list_split Rs k 1 L) as [Rs0 [Rs1 [-> [G1 G2]]]]. destruct Rs1 as [|r [|? ?]]; try discriminate G2.
    destruct (IH Rs0 ltac:(lia)) as [Z [b Hb]].
    { split; [congruence|]. intros j o r' Ej Er. specialize (M j o r'). rewrite nth_error_app1 in M by (apply nth_error_Some; congruence).
      assert (Hj : (j < length Rs0)%nat) by (apply nth_error_Some; congruence).
      rewrite nth_error_app1 in M by exact Hj. rewrite firstn_app in M. replace (j - length Rs0)%nat with 0%nat in M by lia. cbn [firstn] in M. rewrite app_nil_r in M. exact (M Ej Er). }
    specialize (M k (oBAssert (2 + n + k)) r). rewrite nth_error_app2 in M by lia. rewrite Lk, Nat.sub_diag in M. specialize (M eq_refl).
    rewrite nth_error_app2 in M by lia. replace (k - length Rs0)%nat with 0%nat in M by lia. specialize (M eq_refl). cbv zeta in M.
    rewrite firstn_app in M. replace (k - length Rs0)%nat with 0%nat in M by lia. cbn [firstn] in M. rewrite app_nil_r in M.
    rewrite (firstn_all2 Rs0) in M by lia. rewrite Z, app_nil_r in M. cbn [means] in M. destruct M as [M1 M2].
    assert (r = []) by (destruct r; [auto|discriminate M1]). subst r. rewrite concat_app, Z. cbn [concat app]. split; [reflexivity|].
    assert (Nk : exists c, nth_error path k = Some c).
    { destruct (nth_error path k) as [c|] eqn:En; [eauto|]. apply nth_error_None in En. lia. }
    destruct Nk as [c Nk].
    assert (Ef : firstn (S k) path = firstn k path ++ [c]).
    { now apply firstn_snoc. }
    assert (Ev : nth (2 + n + k) (map (ceval s) ([x] ++ leaf :: sib ++ path)) 0 = ceval s c).
    { cbn [app map Nat.add nth]. rewrite map_app, app_nth2, map_length, L1 by (rewrite map_length; lia). replace (n + k - n)%nat with k by lia.
      rewrite (nth_indep _ 0 (ceval s czero)) by (rewrite map_length; lia). rewrite map_nth. f_equal. now apply nth_error_nth. }
    rewrite Ev in M2. rewrite Ef, map_app, Hb. cbn [map].
    destruct M2 as [M2|M2]; [exists (b ++ [false])|exists (b ++ [true])]; rewrite map_app, M2; reflexivity.
Qed.
Lemma claim_C81_member : forall (p l : positive) (sqrt : Num p -> option (Num p)) (PP : @PoseidonParams p) (J : JubJub p l) n root, params_ok sqrt PP J ->
  statement (member_ops n) sqrt PP J TNum (member_ty n) [root] <->
  exists leaf sib path, length sib = n /\ length path = n /\ poseidon_merkle_proof_root PP leaf sib path = Ok root.
Proof.
  intros p l sqrt PP J n root H.
  assert (HI : forall a, ~ In (oInputize (p := p) a) (member_ops n)).
  { intros a Hin. unfold member_ops in Hin. apply in_app_or in Hin. destruct Hin as [Hin|[X|[X|[]]]]; try discriminate X.
    apply in_map_iff in Hin. destruct Hin as [i [X _]]. discriminate X. }
  assert (Ln : length (member_ops (p := p) n) = (n + 2)%nat) by (unfold member_ops; rewrite app_length, map_length, seq_length; reflexivity).
  assert (En : nth_error (member_ops (p := p) n) n = Some (oMerkleProof 1 (seq 2 n) (seq (2 + n) n))).
  { unfold member_ops. rewrite nth_error_app2; rewrite map_length, seq_length; [now rewrite Nat.sub_diag|lia]. }
  assert (En1 : nth_error (member_ops (p := p) n) (n + 1) = Some (oAssertEq 0 (2 + n + n))).
  { unfold member_ops. rewrite nth_error_app2; rewrite map_length, seq_length; [|lia]. replace (n + 1 - n)%nat with 1%nat by lia. reflexivity. }
  (* what the Merkle call and the bits say *)
  assert (Core : forall s (x leaf : CNum p) sib path Rs, length sib = n -> length path = n ->
    meets_after sqrt PP J s ([x] ++ leaf :: sib ++ path) (firstn (n + 1) (member_ops n)) Rs ->
    exists r c b, concat Rs = [c] /\ ceval s c = r /\ map (ceval s) path = map nbool b /\ length b = n /\
      poseidon_merkle_proof_root PP (ceval s leaf) (map (ceval s) sib) b = Ok r).
  { intros s x leaf sib path Rs L1 L2 [L M]. rewrite firstn_length, Ln, Nat.min_l in L by lia.
    destruct (list_split Rs n 1 L) as [Rs0 [Rs1 [-> [G1 G2]]]]. destruct Rs1 as [|r [|? ?]]; try discriminate G2.
    assert (Ef : forall j, (j <= n)%nat -> nth_error (firstn (n + 1) (member_ops (p := p) n)) j = nth_error (member_ops n) j).
    { intros j Hj. apply nth_firstn. lia. }
    destruct (member_bits sqrt PP J n s x leaf sib path n Rs0 L1 L2 ltac:(lia)) as [Z [b Hb]].
    { split; [rewrite firstn_length, Ln; lia|]. intros j o r' Ej Er.
      assert (Hj : (j < n)%nat) by (rewrite <- G1; apply nth_error_Some; congruence).
      specialize (M j o r'). rewrite Ef in M by lia. rewrite nth_error_app1 in M by lia. rewrite firstn_app in M. replace (j - length Rs0)%nat with 0%nat in M by lia. cbn [firstn] in M. rewrite app_nil_r in M. apply M; [|exact Er].
      rewrite <- Ej. symmetry. now apply nth_firstn. }
    rewrite firstn_all2 in Hb by lia.
    specialize (M n (oMerkleProof 1 (seq 2 n) (seq (2 + n) n)) r). rewrite Ef in M by lia. specialize (M En). rewrite nth_error_app2 in M by lia.
    replace (n - length Rs0)%nat with 0%nat in M by lia. specialize (M eq_refl). cbv zeta in M. rewrite firstn_app in M. replace (n - length Rs0)%nat with 0%nat in M by lia.
    cbn [firstn] in M. rewrite app_nil_r in M. rewrite (firstn_all2 Rs0) in M by lia. rewrite Z, app_nil_r in M. cbn [means] in M. destruct M as [q [M1 M2]].
    rewrite !seq_length in M2. specialize (M2 eq_refl b). unfold bitsof in M2.
    pose proof (block (map (ceval s) ([x] ++ leaf :: sib ++ path)) [ceval s x; ceval s leaf] (map (ceval s) sib) (map (ceval s) path) 0 ltac:(cbn [app map]; now rewrite map_app)) as B1.
    pose proof (block (map (ceval s) ([x] ++ leaf :: sib ++ path)) ([ceval s x; ceval s leaf] ++ map (ceval s) sib) (map (ceval s) path) [] 0 ltac:(cbn [app map]; now rewrite map_app, app_nil_r)) as B2.
    rewrite map_length, L1 in B1. rewrite app_length, !map_length, L1, L2 in B2. cbn [length] in B1, B2. rewrite B1, B2 in M2. cbn [app map nth] in M2. specialize (M2 Hb).
    destruct r as [|c [|? ?]]; try discriminate M1. exists q, c, b. rewrite concat_app, Z. cbn [concat app]. split; [reflexivity|]. cbn [map] in M1. split; [congruence|].
    split; [exact Hb|]. split; [rewrite <- (map_length (@nbool p)), <- Hb, map_length; exact L2|exact M2]. }
  split.
  - intros St. destruct (statement_sound sqrt PP J _ _ _ _ H HI St) as [s [x [y [Rs [E1 [Lx [Ly [N [LM M]]]]]]]]].
    destruct x as [|x [|? ?]]; try discriminate E1. cbn [map] in E1. assert (Ex : ceval s x = root) by congruence.
    cbn [member_ty tsize tsizes] in Ly. destruct y as [|leaf y]; [discriminate Ly|]. cbn [length] in Ly.
    destruct (list_split y n n) as [sib [path [-> [L1 L2]]]]; [lia|]. rewrite Ln in LM.
    destruct (list_split Rs (n + 1) 1) as [Rs0 [Rs1 [-> [G1 G2]]]]; [lia|]. destruct Rs1 as [|r [|? ?]]; try discriminate G2.
    destruct (Core s x leaf sib path Rs0 L1 L2) as [q [c [b [Z [Ec [Hb [Lb Hq]]]]]]].
    { split; [rewrite firstn_length, Ln; lia|]. intros j o r' Ej Er.
      assert (Hj : (j < n + 1)%nat) by (rewrite <- G1; apply nth_error_Some; congruence).
      specialize (M j o r'). rewrite nth_error_app1 in M by lia. rewrite firstn_app in M. replace (j - length Rs0)%nat with 0%nat in M by lia. cbn [firstn] in M. rewrite app_nil_r in M. apply M; [|exact Er].
      rewrite <- Ej. symmetry. now apply nth_firstn. }
    specialize (M (n + 1)%nat _ r En1). rewrite nth_error_app2 in M by lia. replace (n + 1 - length Rs0)%nat with 0%nat in M by lia. specialize (M eq_refl). cbv zeta in M.
    rewrite firstn_app in M. replace (n + 1 - length Rs0)%nat with 0%nat in M by lia. cbn [firstn] in M. rewrite app_nil_r in M. rewrite (firstn_all2 Rs0) in M by lia. rewrite Z in M.
    cbn [means] in M. destruct M as [_ M].
    assert (Ev : nth (2 + n + n) (map (ceval s) (([x] ++ leaf :: sib ++ path) ++ [c])) 0 = ceval s c).
    { rewrite map_app, app_nth2; rewrite map_length; cbn [app length]; rewrite app_length, L1, L2; [|lia]. replace (2 + n + n - S (S (n + n)))%nat with 0%nat by lia. reflexivity. }
    rewrite Ev in M. cbn [app map nth] in M.
    exists (ceval s leaf), (map (ceval s) sib), b. rewrite map_length. split; [exact L1|]. split; [exact Lb|]. rewrite Hq. f_equal. congruence.
  - intros [leaf [sib [path [L1 [L2 E]]]]].
    assert (Vs : vleaves (member_ty n) (leaf, (sib, (path, tt))) = leaf :: sib ++ map nbool path).
    { cbn [member_ty vleaves vleavess fst snd]. rewrite app_nil_r.
      assert (A1 : flat_map (fun x : Num p => [x]) sib = sib) by (clear; induction sib as [|z q IH]; cbn; congruence).
      assert (A2 : flat_map (fun b : bool => [if b then 1 else 0]) path = map (@nbool p) path) by (clear; induction path as [|[] q IH]; cbn; [reflexivity|f_equal; exact IH..]).
      transitivity (leaf :: flat_map (fun x : Num p => [x]) sib ++ flat_map (fun b : bool => [if b then (1 : Num p) else 0]) path); [reflexivity|]. now rewrite A1, A2. }
    apply (statement_complete sqrt PP J (member_ops n) TNum (member_ty n) root (leaf, (sib, (path, tt))) H HI).
    + unfold member_ops. apply Forall_app. split; [|repeat constructor]. apply Forall_map, Forall_forall. intros i _. exact I.
    + unfold member_ops. apply Forall_app. split; [|repeat constructor]. apply Forall_map, Forall_forall. intros i _. exact I.
    + exact I.
    + cbn. repeat split; auto; apply Forall_forall; intros; exact I.
    + rewrite Vs. intros k o a b U tr Rs s Ek N S1 Ea Eb He Hs M.
      destruct a as [|a [|? ?]]; try discriminate Ea. cbn [vleaves map] in Ea. assert (Ea' : ceval s a = root) by congruence.
      destruct b as [|cl b]; [discriminate Eb|]. cbn [map] in Eb.
      assert (Ecl : ceval s cl = leaf) by congruence. assert (Eb' : map (ceval s) b = sib ++ map nbool path) by congruence. clear Ea Eb.
      assert (Lb : length b = (n + n)%nat) by (rewrite <- (map_length (ceval s)), Eb', app_length, map_length; lia).
      destruct (list_split b n n Lb) as [csib [cpath [-> [G1 G2]]]]. rewrite map_app in Eb'.
      assert (Es : map (ceval s) csib = sib /\ map (ceval s) cpath = map nbool path).
      { clear - Eb' L1 G1. assert (L : length (map (ceval s) csib) = length sib) by (rewrite map_length; lia). revert L Eb'. generalize (map (ceval s) csib) as u. revert sib L1 G1. intros sib _ _. induction sib as [|z sib IH]; intros [|w u]; cbn; try discriminate; auto. intros L E. destruct (IH u) as [A B]; [lia|congruence|]. split; [congruence|exact B]. }
      destruct Es as [Es Ep]. assert (Hk : (k < n + 2)%nat) by (rewrite <- Ln; apply nth_error_Some; congruence).
      assert (Vall : map (ceval s) ([a] ++ cl :: csib ++ cpath) = root :: leaf :: sib ++ map nbool path) by (cbn [app map]; rewrite map_app; congruence).
      assert (Lall : length ([a] ++ cl :: csib ++ cpath) = (2 + n + n)%nat) by (cbn [app length]; rewrite app_length; lia).
      destruct (Nat.lt_trichotomy k n) as [Hlt|[->|Hgt]].
      * destruct (member_bits sqrt PP J n s a cl csib cpath k Rs G1 G2 ltac:(lia) M) as [Z _]. rewrite Z, app_nil_r.
        assert (Eo : o = oBAssert (2 + n + k)).
        { unfold member_ops in Ek. rewrite nth_error_app1 in Ek by (rewrite map_length, seq_length; lia). rewrite nth_error_map in Ek.
          rewrite (nth_error_nth' _ 0%nat) in Ek by (rewrite seq_length; lia). rewrite seq_nth in Ek by lia. cbn [option_map] in Ek. congruence. }
        subst o. split; cbn [args ready]; [apply Forall_cons; [rewrite Lall; lia|apply Forall_nil]|]. rewrite Vall. cbn [Nat.add nth]. rewrite app_nth2 by lia. replace (n + k - length sib)%nat with k by lia.
        rewrite (nth_indep _ 0 (nbool false)) by (rewrite map_length; lia). rewrite map_nth. destruct (nth k path false); [right|left]; reflexivity.
      * destruct (member_bits sqrt PP J n s a cl csib cpath n Rs G1 G2 ltac:(lia) M) as [Z _]. rewrite Z, app_nil_r.
        rewrite En in Ek. inversion Ek; subst o. split; cbn [args ready].
        -- rewrite Lall. constructor; [lia|]. apply Forall_app. split; apply Forall_forall; intros i Hi; apply in_seq in Hi; lia.
        -- rewrite !seq_length. split; [reflexivity|]. exists path. unfold bitsof. rewrite Vall.
           pose proof (block (root :: leaf :: sib ++ map nbool path) ([root; leaf] ++ sib) (map nbool path) [] 0 ltac:(cbn [app]; now rewrite app_nil_r)) as B.
           rewrite app_length, map_length, L1, L2 in B. exact B.
      * assert (k = (n + 1)%nat) by lia. subst k. rewrite En1 in Ek. inversion Ek; subst o.
        destruct (Core s a cl csib cpath Rs G1 G2 M) as [q [c [bb [Z [Ec [Hb [_ Hq]]]]]]]. rewrite Z.
        assert (bb = path). { rewrite Ep in Hb. clear - Hb H. pose proof (j_p _ (k_j _ _ _ H)) as Hp. revert bb Hb. induction path as [|y q IH]; intros [|w bb]; cbn; try discriminate; auto. intros E. f_equal; [|apply IH; congruence]. assert (X : nbool (p := p) y = nbool w) by congruence. destruct y, w; auto; exfalso; apply (n1_neq_n0 Hp); cbn in X; congruence. }
        subst bb. rewrite Es, Ecl, E in Hq. assert (q = root) by congruence.
        split; cbn [args ready].
        -- rewrite app_length, Lall. cbn [length]. apply Forall_cons; [lia|]. apply Forall_cons; [lia|apply Forall_nil].
        -- assert (Ev : nth (2 + n + n) (map (ceval s) (([a] ++ cl :: csib ++ cpath) ++ [c])) 0 = ceval s c).
           { rewrite map_app, app_nth2; rewrite map_length, Lall; [|lia]. rewrite Nat.sub_diag. reflexivity. }
           transitivity (ceval s a); [reflexivity|]. transitivity (ceval s c); [congruence|symmetry; exact Ev].
Qed.
Lemma case_C81_member : exists J P, jubjub_bn sqrt_search = Ok J /\ pp_new 64 true 4 8 54 = Ok (Some P) /\ params_ok sqrt_search P J.
Proof. exact (claim_C80_library sqrt_search (sqrt_search_ok _)). Qed.

(** Knowing a signature of the public message by the public key: public are the key and the
    message, secret are the signature's scalar and point. *)
Definition signed_ops {p} : list (@op p) := [oEddsaVerify 2 3 0 1; oAssertConst 4 1]%nat.
Definition two_nums : sty := TProd (TCons TNum (TCons TNum TNil)).
Lemma l_below_p {p l} (J : JubJub p l) sqrt PP (H : params_ok sqrt PP J) : (Zpos l < Zpos p)%Z.
Proof.
  pose proof (k_bits _ _ _ H) as B. pose proof (num_bits_upper l) as U. pose proof (num_bits_lower p) as L.
  assert ((2 ^ Z.of_nat (num_bits l) <= 2 ^ (Z.of_nat (num_bits p) - 1))%Z) by (apply Z.pow_le_mono_r; lia). lia.
Qed.
Lemma claim_C81_signed : forall (p l : positive) (sqrt : Num p -> option (Num p)) (PP : @PoseidonParams p) (J : JubJub p l) a m, params_ok sqrt PP J ->
  statement signed_ops sqrt PP J two_nums two_nums [a; m] <-> exists (s : Num l) r, eddsaposeidon_verify PP sqrt J s r a m = Ok true.
Proof.
  intros p l sqrt PP J a m H. pose proof (j_p _ (k_j _ _ _ H)) as Hp. pose proof (l_below_p J sqrt PP H) as Hlp.
  assert (HI : forall a, ~ In (oInputize (p := p) a) signed_ops) by (intros i [X|[X|[]]]; discriminate).
  split.
  - intros St. destruct (statement_sound sqrt PP J _ _ _ _ H HI St) as [s [x [y [Rs [E1 [L1 [L2 [N [LM M]]]]]]]]].
    destruct x as [|xa [|xm [|? ?]]]; try discriminate E1. destruct y as [|ys [|yr [|? ?]]]; try discriminate L2.
    destruct Rs as [|r0 [|r1 [|? ?]]]; try discriminate LM. cbn [map] in E1. assert (Ea : ceval s xa = a) by congruence. assert (Em : ceval s xm = m) by congruence.
    cbn [app] in N. inversion N as [|? ? Na N1]; inversion N1 as [|? ? Nm N2]; inversion N2 as [|? ? Ns N3]; inversion N3 as [|? ? Nr N4]; subst.
    pose proof (M 0%nat _ r0 eq_refl eq_refl) as M0. cbn [firstn concat] in M0. cbv zeta in M0. cbn [means] in M0. cbv zeta in M0. cbn [map nth app] in M0. destruct M0 as [q [Q1 Q2]].
    destruct (Q2 Ns Nr Na Nm) as [_ [_ [_ [b [V1 V2]]]]].
    pose proof (M 1%nat _ r1 eq_refl eq_refl) as M1. cbn [firstn concat] in M1. cbv zeta in M1. cbn [means] in M1. cbv zeta in M1. rewrite app_nil_r in M1.
    cbn [app map nth] in M1. rewrite Q1 in M1. cbn [nth] in M1. destruct M1 as [_ M1]. exists (num (nval (ceval s ys))), (ceval s yr). rewrite V1. f_equal.
    destruct b; auto. exfalso. apply (n1_neq_n0 Hp). rewrite <- M1, V2. reflexivity.
  - intros [s0 [r0 E]]. pose proof (nval_range s0) as R0.
    assert (Ns0 : nval (num (nval s0) : Num p) = nval s0) by (apply nval_num_small; lia).
    apply (statement_complete sqrt PP J signed_ops two_nums two_nums (a, (m, tt)) (num (nval s0), (r0, tt)) H HI); [repeat constructor|repeat constructor|cbn; auto|cbn; auto|].
    cbn [two_nums vleaves vleavess fst snd app].
    assert (Dec : (exists A, subgroup_decompress sqrt l (jd J) a = Ok (Some A)) /\ (exists B, subgroup_decompress sqrt l (jd J) r0 = Ok (Some B))).
    { unfold eddsaposeidon_verify, verify_with in E. destruct (subgroup_decompress sqrt l (jd J) a) as [[A|]|]; try discriminate E. cbn [rbind] in E.
      destruct (subgroup_decompress sqrt l (jd J) r0) as [[B|]|]; try discriminate E. eauto. }
    intros k o x y U tr Rs s Ek N S1 Ea Eb He Hs [LM M].
    destruct x as [|xa [|xm [|? ?]]]; try discriminate Ea. destruct y as [|ys [|yr [|? ?]]]; try discriminate Eb. cbn [map] in Ea, Eb.
    assert (Va : ceval s xa = a) by congruence. assert (Vm : ceval s xm = m) by congruence. assert (Vs : ceval s ys = num (nval s0)) by congruence. assert (Vr : ceval s yr = r0) by congruence.
    cbn [app] in N. inversion N as [|? ? Na N1]; inversion N1 as [|? ? Nm N2]; inversion N2 as [|? ? Nns N3]; inversion N3 as [|? ? Nr N4]; subst.
    assert (Hb : (nval s0 < 2 ^ Z.of_nat (num_bits l))%Z) by (pose proof (num_bits_upper l); lia).
    destruct k as [|[|[|k]]]; cbn [signed_ops nth_error] in Ek; try discriminate Ek; inversion Ek; subst o; cbn [firstn length signed_ops] in LM.
    + destruct Rs; [|discriminate LM]. split; cbn [args ready app concat length map nth]; [repeat constructor; lia|]. rewrite Vs, Ns0. destruct Dec as [D1 D2]. auto 10.
    + destruct Rs as [|rr [|? ?]]; try discriminate LM.
      pose proof (M 0%nat _ rr eq_refl eq_refl) as M0. cbn [firstn concat] in M0. cbv zeta in M0. cbn [means] in M0. cbv zeta in M0. cbn [map nth app] in M0. destruct M0 as [q [Q1 Q2]].
      destruct (Q2 Nns Nr Na Nm) as [_ [_ [_ [b [V1 V2]]]]]. rewrite Vs, Ns0, num_nval, E in V1. assert (b = true) by congruence. subst b.
      assert (L : length rr = 1%nat) by (rewrite <- (map_length (ceval s)), Q1; reflexivity).
      split; cbn [args ready]; [rewrite !app_length; cbn [concat]; rewrite app_nil_r, L; cbn; repeat constructor; lia|].
      rewrite map_app. cbn [concat]. rewrite app_nil_r, Q1. cbn [app map nth]. exact V2.
Qed.
Lemma case_C81_signed : exists J P, jubjub_bn sqrt_search = Ok J /\ pp_new 64 true 4 8 54 = Ok (Some P) /\ params_ok sqrt_search P J.
Proof. exact (claim_C80_library sqrt_search (sqrt_search_ok _)). Qed.

(** A back end over any field that meets [bellman_complete] and always makes a proof, to run the
    commands on a preimage under the library's Poseidon. *)
Definition anyacc {p} (n : nat) (q : list (Num p)) : Num 251 :=
  fold_left (fun acc ib => acc + snd ib * num (nval (fst ib))) (combine q (skipn 1 (repeat 1 n))) 1.
Definition anyB (p : positive) : Bellman toyE p := mkBellman (E := toyE) (p := p) nat
  (fun K _ => match k_inputs K with O => None | S _ => Some (k_inputs K) end)
  (fun P n _ => let a c := num 2 * num 3 + (anyacc n (skipn 1 (p_inputs P)) * num 5 + c * num 7) in
     Some (if nis_zero (a (num 4)) then mkPf (a (num 6)) 1 (num 6) else mkPf (a (num 4)) 1 (num 4)))
  toy_vk (repeat 0%Z) (fun q => Some (length q)).
Add Ring num251s_ring : (@num_ring 251).
Lemma any_complete p : bellman_complete (anyB p).
Proof.
  intros K P r r' n pf [S1 _] _ HG HP. cbn [anyB b_generate b_prove b_vk] in *.
  destruct (k_inputs K) as [|k] eqn:EK; [discriminate|]. assert (n = S k) as -> by congruence. clear HG.
  assert (exists c, pf = mkPf (num 2 * num 3 + (anyacc (S k) (skipn 1 (p_inputs P)) * num 5 + c * num 7)) 1 c) as [c ->] by (destruct (nis_zero _) in HP; eexists; injection HP as <-; reflexivity).
  unfold verify, truncate_verifying_key, toy_vk. cbn [bv_ic vk_ic bv_alpha_g1 bv_beta_g2 bv_gamma_g2 bv_delta_g2 vk_alpha vk_beta vk_gamma vk_delta pf_a pf_b pf_c].
  rewrite repeat_length, skipn_length, <- S1. replace (S k - 1 + 1)%nat with (S k) by lia. rewrite Nat.eqb_refl. cbn [negb repeat nth_error unwrap rbind].
  change (fold_left _ _ _) with (anyacc (S k) (skipn 1 (p_inputs P))). set (acc := anyacc _ _). clearbody acc.
  cbn [toyE e_final e_miller fold_right fst snd e1neg ek_eqb ek_one unwrap rbind]. do 2 f_equal. apply neqb_eq. ring.
Qed.
Lemma any_finite {p} (P : @proveasm p) n r pf : b_prove (anyB p) P n r = Some pf -> finite_proof (toy_codec 1) (toy_codec 2) pf.
Proof.
  cbn [anyB b_prove]. intros HP. set (acc := anyacc _ _) in HP. clearbody acc.
  destruct (nis_zero _) eqn:Z in HP; injection HP as <-; unfold finite_proof; cbn [toy_codec pc_is_zero pf_a pf_b pf_c]; (split; [|split; vm_compute; reflexivity]); [|exact Z].
  destruct (nis_zero (num 2 * num 3 + (acc * num 5 + num 6 * num 7))) eqn:Z2; auto. exfalso. apply nis_zero_eq in Z, Z2.
  assert (X : (num 14 : Num 251) = 0). { transitivity ((num 2 * num 3 + (acc * num 5 + num 6 * num 7)) - (num 2 * num 3 + (acc * num 5 + num 4 * num 7)) : Num 251); [|rewrite Z, Z2; ring].
    transitivity ((num 6 - num 4) * num 7 : Num 251); [apply num_eq; vm_compute; reflexivity|ring]. }
  apply (f_equal nval) in X. vm_compute in X. discriminate X.
Qed.
Definition any_print {p} (x : Num p * Num p) : list Z := [nval (fst x); nval (snd x)].
Definition any_parse {p} (s : list Z) : option (Num p * Num p) := match s with [a; b] => Some (num a, num b) | _ => None end.
Lemma case_C81_session : exists J P, jubjub_bn sqrt_search = Ok J /\ pp_new 64 true 4 8 54 = Ok (Some P) /\
  forall x h, poseidon P [x] = Ok h ->
  let main := lib_main sqrt_search P J preimage_ops TNum TNum in let Fm := waves_format (toy_codec 1) (toy_codec 2) bn_r in
  exists d1 d3, cli_setup (E := toyE) (anyB bn_r) Fm TNum TNum main true [1%Z] [2%Z] no_rnd no_files = Ok d1 /\
    cli_prove (E := toyE) (anyB bn_r) Fm TNum TNum main any_parse [1%Z] [3%Z] [4%Z] [5%Z] no_rnd (cli_generate_test_data TNum TNum any_print (h, x) [3%Z] d1) = Ok d3 /\
    cli_verify (E := toyE) Fm [2%Z] [4%Z] [5%Z] d3 = Ok true.
Proof.
  destruct (claim_C80_library sqrt_search (sqrt_search_ok _)) as [J [P [E1 [E2 H]]]]. exists J, P. split; [exact E1|]. split; [exact E2|]. intros x h E main Fm.
  assert (HI : forall a, ~ In (oInputize (p := bn_r) a) preimage_ops) by (intros a [Y|[Y|[]]]; discriminate Y).
  assert (Dn : forall a b : Z, a <> b -> [a] <> [b]) by (intros a b N Y; apply N; congruence).
  destruct (claim_C81_session toyE bn_r bn_l sqrt_search P J (anyB bn_r) Fm preimage_ops TNum TNum any_print any_parse
    (finite_key (toy_codec 1) (toy_codec 2)) (finite_proof (toy_codec 1) (toy_codec 2)) (fun _ => True) true [1%Z] [2%Z] [3%Z] [4%Z] [5%Z] no_rnd no_rnd no_files h x H)
    as [K [Q [u [u' [HK [HQ X]]]]]]; try (apply Dn; lia).
  - apply any_complete.
  - intros n. cbn. now rewrite repeat_length.
  - intros [a b]. unfold any_parse, any_print. cbn [fst snd]. now rewrite !num_nval.
  - apply claim_C75_waves; auto using toy_bytes; apply toy_codec_ok; lia.
  - repeat constructor.
  - exact HI.
  - repeat constructor.
  - exact I.
  - exact I.
  - now apply preimage_native.
  - assert (HG : exists n, b_generate (anyB bn_r) K no_rnd = Some n).
    { cbn [anyB b_generate]. destruct (system_inputs sqrt_search P J H preimage_ops TNum TNum K u HI HK) as [m Em]. rewrite Em. eauto. }
    destruct HG as [n HG]. destruct (b_prove (anyB bn_r) Q n no_rnd) as [pf|] eqn:HP; [|discriminate HP].
    apply (X n pf HG HP); auto.
    + unfold finite_key, truncate_verifying_key. cbn [anyB b_vk toy_vk vk_alpha vk_beta vk_gamma vk_delta vk_ic bv_alpha_g1 bv_beta_g2 bv_gamma_g2 bv_delta_g2 bv_ic].
      do 4 (split; [vm_compute; reflexivity|]). apply Forall_forall. intros g Hg. apply repeat_spec in Hg. subst g. vm_compute. reflexivity.
    + exact (any_finite Q n no_rnd pf HP).
Qed.

(** The same parameters meet the hypotheses of the other claims: the hash of 3 has a preimage. *)
Lemma system_case : exists J P h, jubjub_bn sqrt_search = Ok J /\ pp_new 64 true 4 8 54 = Ok (Some P) /\ params_ok sqrt_search P J /\ poseidon P [num 3] = Ok h /\
  (forall a, ~ In (oInputize (p := bn_r) a) preimage_ops) /\ Forall no_alloc (preimage_ops (p := bn_r)) /\ Forall limits (preimage_ops (p := bn_r)) /\ natively sqrt_search P J preimage_ops [h] [num 3].
Proof.
  destruct (claim_C80_library sqrt_search (sqrt_search_ok _)) as [J [P [E1 [E2 H]]]].
  destruct (poseidon_ok P [num 3] (k_pp _ _ _ H)) as [h Eh]; [pose proof (k_t _ _ _ H); cbn; lia|].
  exists J, P, h. do 4 (split; [assumption|]). split; [intros a [Y|[Y|[]]]; discriminate Y|]. split; [repeat constructor|]. split; [repeat constructor|]. now apply preimage_native.
Qed.
Lemma case_C81_complete : exists J P h, params_ok sqrt_search P J /\ vsized (p := bn_r) TNum h /\ vsized (p := bn_r) TNum (num 3) /\
  (forall a, ~ In (oInputize (p := bn_r) a) preimage_ops) /\ Forall no_alloc (preimage_ops (p := bn_r)) /\ natively (l := bn_l) sqrt_search P J preimage_ops (vleaves TNum h) (vleaves TNum (num 3)).
Proof. destruct system_case as [J [P [h [_ [_ [H [_ [A [B [_ C]]]]]]]]]]. exists J, P, h. do 3 (split; [exact H || exact I|]). split; [exact A|]. split; [exact B|exact C]. Qed.
Lemma case_C81_sound : exists J P K u (s : Index -> Num bn_r), params_ok (l := bn_l) sqrt_search P J /\ (forall a, ~ In (oInputize (p := bn_r) a) preimage_ops) /\
  key_system (co_synthesize TNum TNum (lib_main sqrt_search P J preimage_ops TNum TNum) None None) = Ok (K, u) /\ s I0 = 1 /\ sys_sat s (k_cons K).
Proof.
  destruct system_case as [J [P [h [_ [_ [H [E [A _]]]]]]]].
  destruct (proj2 (claim_C81_preimage bn_r bn_l sqrt_search P J h H) (ex_intro _ _ E)) as [K [u [s [HK [S1 [_ SS]]]]]].
  exists J, P, K, u, s. auto.
Qed.
Lemma case_C81_verified : exists J P d1 d2, params_ok (l := bn_l) sqrt_search P J /\
  let main := lib_main sqrt_search P J preimage_ops TNum TNum in let Fm := waves_format (toy_codec 1) (toy_codec 2) bn_r in
  cli_setup (E := toyE) (anyB bn_r) Fm TNum TNum main true [1%Z] [2%Z] no_rnd no_files = Ok d1 /\ d2 [2%Z] = d1 [2%Z] /\
  cli_verify (E := toyE) Fm [2%Z] [4%Z] [5%Z] d2 = Ok true.
Proof.
  destruct system_case as [J [P [h [E1 [E2 [H [E _]]]]]]]. destruct case_C81_session as [J' [P' [E1' [E2' X]]]].
  assert (J' = J) by congruence. assert (P' = P) by congruence. subst J' P'. destruct (X _ _ E) as [d1 [d3 [X1 [X2 X3]]]].
  exists J, P, d1, d3. split; [exact H|]. cbv zeta. split; [exact X1|]. split; [|exact X3].
  unfold cli_prove in X2. repeat match type of X2 with (rbind ?m _) = Ok _ => destruct m as [?|]; cbn [rbind] in X2; [|discriminate X2] end.
  injection X2 as <-. unfold cli_generate_test_data. rewrite !fs_other by (intros Y; discriminate Y). reflexivity.
Qed.
