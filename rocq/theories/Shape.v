(** Two runs of the same gadget on numbers with the same linear combinations
    but different cached values: they make the same calls. *)

From Verif Require Export NumSpec Bitify BitsTheory Sem.

Section Shape.
Context {p : positive}.
Notation F := (Num p).

(** The same linear combination; the cached values may differ. *)
Definition same (c c' : CNum p) : Prop := clc c = clc c'.
Definition sames (l l' : list (CNum p)) : Prop := map clc l = map clc l'.

(** [shp strict R m m']: the programs make the same allocations and enforce
    the same linear combinations, as long as neither panics, and [R] holds of
    the results. With [strict], moreover [m'] panics only if [m] does. *)
Fixpoint shp {A B} (strict : bool) (R : A -> B -> Prop) (m : prog p A) (m' : prog p B) : Prop :=
  match m, m' with
  | PPanic, _ => True
  | _, PPanic => strict = false
  | Ret a, Ret b => R a b
  | Alloc _ k, Alloc _ k' => forall i, shp strict R (k i) (k' i)
  | AllocInput _ k, AllocInput _ k' => forall i, shp strict R (k i) (k' i)
  | Enforce a b c k, Enforce a' b' c' k' => (same a a' /\ same b b' /\ same c c') /\ shp strict R k k'
  | _, _ => False
  end.

(** A back end chooses a variable from the calls made so far, the allocation
    included. It sees the linear combinations, not the values. *)
Inductive call := CAlloc | CInput | CEnf (a b c : lcT p).
Fixpoint drive {A} (be : list call -> Index) (h : list call) (m : prog p A) : list call * option A :=
  match m with
  | Ret a => (h, Some a)
  | PPanic => (h, None)
  | Alloc _ k => drive be (CAlloc :: h) (k (be (CAlloc :: h)))
  | AllocInput _ k => drive be (CInput :: h) (k (be (CInput :: h)))
  | Enforce a b c k => drive be (CEnf (clc a) (clc b) (clc c) :: h) k
  end.

Theorem shp_drive {A B} strict (R : A -> B -> Prop) (m : prog p A) (m' : prog p B) be :
  shp strict R m m' -> forall h,
  (forall a, snd (drive be h m) = Some a ->
     (strict = true -> snd (drive be h m') <> None) /\
     (forall b, snd (drive be h m') = Some b -> R a b /\ fst (drive be h m) = fst (drive be h m'))).
Proof.
  revert m'. induction m as [a| |v k IH|v k IH|a b c k IH]; intros m' H h r Hr; cbn [drive] in *.
  - destruct m' as [a'| |v' k'|v' k'|a' b' c' k']; cbn in H; try contradiction.
    + cbn [drive fst snd] in *. split; [discriminate|]. intros b' E. split; congruence.
    + cbn [drive snd]. split; [congruence|discriminate].
  - discriminate.
  - destruct m' as [a'| |v' k'|v' k'|a' b' c' k']; cbn in H; try contradiction.
    + cbn [drive snd]. split; [congruence|discriminate].
    + cbn [drive]. eapply IH; eauto.
  - destruct m' as [a'| |v' k'|v' k'|a' b' c' k']; cbn in H; try contradiction.
    + cbn [drive snd]. split; [congruence|discriminate].
    + cbn [drive]. eapply IH; eauto.
  - destruct m' as [a'| |v' k'|v' k'|a' b' c' k']; cbn in H; try contradiction.
    + cbn [drive snd]. split; [congruence|discriminate].
    + destruct H as [[E1 [E2 E3]] H]. cbn [drive]. unfold same in *. rewrite E1, E2, E3 in *. eapply IH; eauto.
Qed.

Lemma shp_mono {A B} strict (R R' : A -> B -> Prop) m m' :
  shp strict R m m' -> (forall a b, R a b -> R' a b) -> shp strict R' m m'.
Proof.
  intros H HR. revert m' H. induction m as [a| |v k IH|v k IH|a b c k IH]; intros [a'| |v' k'|v' k'|a' b' c' k'];
    cbn; auto; intros [H1 H2]; auto.
Qed.
Lemma shp_bind {A B A' B'} strict (R : A -> B -> Prop) (R' : A' -> B' -> Prop) m m' f f' :
  shp strict R m m' -> (forall a b, R a b -> shp strict R' (f a) (f' b)) ->
  shp strict R' (pbind m f) (pbind m' f').
Proof.
  intros H HR. revert m' H. induction m as [a| |v k IH|v k IH|a b c k IH]; intros [a'| |v' k'|v' k'|a' b' c' k'];
    cbn; auto; try contradiction.
  - intros ->. destruct (f a); reflexivity || exact I.
  - intros [H1 H2]. auto.
Qed.
Lemma shp_ret {A B} strict (R : A -> B -> Prop) a b : R a b -> shp strict R (Ret a) (Ret b).
Proof. auto. Qed.
Lemma shp_lift {A B} strict (R : A -> B -> Prop) (r : res A) (r' : res B) :
  (forall a, r = Ok a -> (strict = true -> r' <> Panic) /\ forall b, r' = Ok b -> R a b) ->
  shp strict R (plift r) (plift r').
Proof.
  intros H. destruct r as [a|]; [|exact I]. destruct (H a eq_refl) as [H1 H2].
  destruct r' as [b|]; cbn; auto. destruct strict; auto. exfalso. now apply H1.
Qed.
Lemma shp_passert strict b : shp strict eq (passert b) (passert b).
Proof. destruct b; cbn; auto. Qed.
Lemma shp_enforce strict a b c a' b' c' : same a a' -> same b b' -> same c c' ->
  shp strict eq (enforce a b c) (enforce a' b' c').
Proof. intros. cbn. auto. Qed.
Lemma shp_calloc0 strict v v' : shp strict same (calloc v) (calloc v').
Proof. cbn. intros i. reflexivity. Qed.

End Shape.

(** Run the matching pair of gadgets [lem] first. *)
Ltac shp_step lem :=
  eapply shp_bind; [solve [eapply lem; eauto with shp]|];
  let H' := fresh "Q" in intros ? ? H'; cbv beta in H'.

(** [v'] is absent or equal to [v]. *)
Definition ole {A} (v v' : option A) : Prop := forall w, v' = Some w -> v = Some w.

(** The relation between the numbers of a proving run and those of a setup
    run. Without [st] it is equality of linear combinations; with [st] also
    every cached value of the second is that of the first. *)
Definition sm {p} (st : bool) (x x' : CNum p) : Prop :=
  clc x = clc x' /\ (st = true -> ole (cvalue x) (cvalue x')).

Lemma ole_none {A} (v : option A) : ole v None.
Proof. discriminate. Qed.
Lemma ole_refl {A} (v : option A) : ole v v.
Proof. now intros w. Qed.
Lemma ole_map {A B} (f : A -> B) v v' : ole v v' -> ole (option_map f v) (option_map f v').
Proof. intros H w E. destruct v' as [u|]; [|discriminate]. now rewrite (H u eq_refl). Qed.
Lemma ole_omap2 {p} (f : Num p -> Num p -> Num p) v v' u u' : ole v v' -> ole u u' -> ole (omap2 f v u) (omap2 f v' u').
Proof.
  intros H1 H2 w E. destruct v' as [a|]; [|discriminate]. destruct u' as [b|]; [|discriminate].
  now rewrite (H1 a eq_refl), (H2 b eq_refl).
Qed.
(** A partial function that succeeds on [v] succeeds on the less defined [v']. *)
Lemma ole_omapM {A B} (f : A -> res B) v v' r : ole v v' -> omapM f v = Ok r ->
  omapM f v' <> Panic /\ forall r', omapM f v' = Ok r' -> ole r r'.
Proof.
  intros H E. destruct v' as [a|].
  - rewrite (H a eq_refl) in E. rewrite E. split; [discriminate|]. intros r' E'. assert (r = r') by congruence. subst. apply ole_refl.
  - cbn. split; [discriminate|]. intros r' E'. assert (r' = None) by congruence. subst. apply ole_none.
Qed.
#[export] Hint Resolve ole_none ole_refl ole_map ole_omap2 : shp.

Section ShpGadgets.
Context {p : positive} (Hp : prime (Zpos p)).
Notation F := (Num p).
Open Scope num_scope.
Context (st : bool).
Implicit Types (x y : CNum p).
Notation sm := (@sm p st).

Lemma sm_same x x' : sm x x' -> same x x'.
Proof. intros [H _]. exact H. Qed.
Lemma sm_const (k : F) : sm (cconst k) (cconst k).
Proof. split; [reflexivity|]. intros _. apply ole_refl. Qed.
Lemma sm_add x y x' y' : sm x x' -> sm y y' -> sm (cadd x y) (cadd x' y').
Proof.
  intros [H1 H2] [H3 H4]. split; [cbn [cadd clc]; now rewrite H1, H3|].
  intros E. cbn [cadd cvalue]. auto with shp.
Qed.
Lemma sm_sub x y x' y' : sm x x' -> sm y y' -> sm (csub x y) (csub x' y').
Proof.
  intros [H1 H2] [H3 H4]. split; [cbn [csub clc]; now rewrite H1, H3|].
  intros E. cbn [csub cvalue]. auto with shp.
Qed.
Lemma sm_cap x x' : sm x x' -> ccap x = ccap x'.
Proof. intros [H _]. unfold ccap. now rewrite H. Qed.
Lemma sm_add_cap x y x' y' : sm x x' -> sm y y' -> sm (cadd_cap x y) (cadd_cap x' y').
Proof.
  intros H1 H2. unfold cadd_cap. rewrite (sm_cap _ _ H1), (sm_cap _ _ H2). destruct Nat.leb; apply sm_add; auto.
Qed.
Lemma sm_add_rv x y x' y' : sm x x' -> sm y y' -> sm (cadd_rv x y) (cadd_rv x' y').
Proof. intros. apply sm_add; auto. Qed.
Lemma sm_neg x x' : sm x x' -> sm (cneg x) (cneg x').
Proof. intros [H1 H2]. split; [cbn; now rewrite H1|]. intros E. cbn [cneg cvalue]. auto with shp. Qed.
Lemma sm_add_num x x' k : sm x x' -> sm (cadd_num x k) (cadd_num x' k).
Proof. intros. apply sm_add; auto using sm_const. Qed.
Lemma sm_sub_num x x' k : sm x x' -> sm (csub_num x k) (csub_num x' k).
Proof. intros. apply sm_sub; auto using sm_const. Qed.
Lemma sm_num_sub x x' k : sm x x' -> sm (num_csub k x) (num_csub k x').
Proof. intros. apply sm_sub; auto using sm_const. Qed.
Lemma sm_mul_num x x' k : sm x x' -> sm (cmul_num x k) (cmul_num x' k).
Proof.
  intros [H1 H2]. unfold cmul_num. destruct (nis_zero k); [apply sm_const|].
  split; [cbn; now rewrite H1|]. intros E. cbn [cvalue]. auto with shp.
Qed.
Lemma sm_as_const x x' : sm x x' -> as_const x = as_const x'.
Proof. intros [H _]. unfold as_const. now rewrite H. Qed.
Hint Resolve sm_const sm_add sm_sub sm_add_cap sm_add_rv sm_neg sm_add_num sm_sub_num sm_num_sub sm_mul_num sm_same : shp.
Hint Extern 1 (Shape.sm _ czero czero) => apply sm_const : shp.
Hint Extern 1 (Shape.sm _ cone cone) => apply sm_const : shp.
Hint Extern 1 (Shape.sm _ (cbconst _) (cbconst _)) => apply sm_const : shp.

Lemma sm_value x x' : sm x x' -> st = true -> ole (cvalue x) (cvalue x').
Proof. intros [_ H]. exact H. Qed.

Lemma shp_calloc v v' : (st = true -> ole v v') -> shp st sm (calloc v) (calloc v').
Proof. intros H. cbn. intros i. split; [reflexivity|]. exact H. Qed.
Lemma shp_omapM {A B} (f : A -> res B) v v' : (st = true -> ole v v') ->
  @shp p _ _ st (fun r r' => st = true -> ole r r') (plift (omapM f v)) (plift (omapM f v')).
Proof.
  intros H. apply shp_lift. intros r Hr. split.
  - intros E. eapply ole_omapM; eauto.
  - intros r' Hr' E. eapply ole_omapM; eauto.
Qed.
Lemma shp_cmul x y x' y' : sm x x' -> sm y y' -> shp st sm (cmul x y) (cmul x' y').
Proof.
  intros Hx Hy. unfold cmul. rewrite <- (sm_as_const _ _ Hx), <- (sm_as_const _ _ Hy).
  destruct (as_const x) eqn:Ex; [apply shp_ret; auto with shp|]. destruct (as_const y) eqn:Ey; [apply shp_ret; auto with shp|].
  eapply shp_bind; [apply shp_calloc|].
  - intros E. apply ole_omap2; eapply sm_value; eauto.
  - intros r r' Hr. shp_step @shp_enforce. apply shp_ret. auto.
Qed.
Lemma shp_csquare x x' : sm x x' -> shp st sm (csquare x) (csquare x').
Proof. intros. now apply shp_cmul. Qed.

Lemma cdiv_num_sm x x' k r : sm x x' -> cdiv_num x k = Ok r ->
  (st = true -> cdiv_num x' k <> Panic) /\ forall r', cdiv_num x' k = Ok r' -> sm r r'.
Proof.
  intros [H1 H2] E. unfold cdiv_num in *. rewrite <- H1. destruct (omapM _ (cvalue x)) as [v|] eqn:Ev; [|discriminate].
  cbn [rbind] in E. destruct (rmapM _ (clc x)) as [l|]; [|discriminate]. cbn [rbind] in E.
  assert (r = mkC v l) by congruence. subst r. split.
  - intros Es. destruct (ole_omapM _ _ _ _ (H2 Es) Ev) as [A B]. destruct (omapM _ (cvalue x')); [discriminate|congruence].
  - intros r' E'. destruct (omapM _ (cvalue x')) as [v'|] eqn:Ev'; [|discriminate]. cbn [rbind] in E'.
    assert (r' = mkC v' l) by congruence. subst r'. split; [reflexivity|]. intros Es.
    destruct (ole_omapM _ _ _ _ (H2 Es) Ev) as [A B]. apply B. exact Ev'.
Qed.
Lemma odiv_ole (a a' b b' : option F) r : ole a a' -> ole b b' -> odiv a b = Ok r ->
  odiv a' b' <> Panic /\ forall r', odiv a' b' = Ok r' -> ole r r'.
Proof.
  intros Ha Hb E. destruct a' as [a'|]; [|cbn; split; [discriminate|]; intros r' E'; assert (r' = None) by congruence; subst; apply ole_none].
  destruct b' as [b'|]; [|cbn; split; [discriminate|]; intros r' E'; assert (r' = None) by congruence; subst; apply ole_none].
  rewrite (Ha _ eq_refl), (Hb _ eq_refl) in E. rewrite E. split; [discriminate|].
  intros r' E'. assert (r = r') by congruence. subst. apply ole_refl.
Qed.
Lemma shp_cdiv x y x' y' : sm x x' -> sm y y' -> shp st sm (cdiv x y) (cdiv x' y').
Proof.
  intros Hx Hy. unfold cdiv. rewrite <- (sm_as_const _ _ Hx), <- (sm_as_const _ _ Hy).
  destruct (as_const x) eqn:Ex.
  { apply shp_lift. intros r Hr. eapply cdiv_num_sm; eauto. }
  destruct (as_const y) eqn:Ey.
  { apply shp_lift. intros r Hr. eapply cdiv_num_sm; eauto. }
  eapply shp_bind with (R := fun v v' => st = true -> ole v v').
  - apply shp_lift. intros v Hv. split.
    + intros E. eapply odiv_ole; [eapply sm_value; eauto..|exact Hv].
    + intros v' Hv' E. eapply odiv_ole; [apply (sm_value _ _ Hx E)|apply (sm_value _ _ Hy E)|exact Hv|exact Hv'].
  - intros v v' Hv. eapply shp_bind; [apply shp_calloc; auto|]. intros r r' Hr.
    shp_step @shp_enforce. apply shp_ret. auto.
Qed.
Lemma shp_inputize x x' : sm x x' -> shp st eq (cinputize x) (cinputize x').
Proof.
  intros H. unfold cinputize. rewrite <- (sm_as_const _ _ H). destruct (as_const x).
  - cbn. intros i. split; auto. split; [|split]; reflexivity.
  - cbn. intros i. split; auto. split; [|split]; try reflexivity. apply H.
Qed.
Lemma shp_assert_const x x' k : sm x x' -> shp st eq (cassert_const x k) (cassert_const x' k).
Proof.
  intros H. unfold cassert_const. rewrite <- (sm_as_const _ _ H). destruct (as_const x); [apply shp_passert|].
  apply shp_enforce; auto with shp; try reflexivity.
Qed.
Lemma shp_assert_zero x x' : sm x x' -> shp st eq (cassert_zero x) (cassert_zero x').
Proof. apply shp_assert_const. Qed.
Lemma shp_assert_eq x y x' y' : sm x x' -> sm y y' -> shp st eq (cassert_eq x y) (cassert_eq x' y').
Proof. intros. apply shp_assert_zero; auto with shp. Qed.
Lemma shp_inv_value x x' : sm x x' ->
  @shp p _ _ st (fun (v v' : option F) => st = true -> ole v v') (plift (inv_value (cvalue x))) (plift (inv_value (cvalue x'))).
Proof.
  intros [_ H]. apply shp_lift. intros v Hv. destruct (inv_value_total (cvalue x')) as [v' [H1 [H2 H3]]].
  rewrite H1. split; [discriminate|]. intros v2 Hv2 Es. assert (v2 = v') by congruence. subst v2.
  destruct (cvalue x') as [w|] eqn:E; [|rewrite H3 by reflexivity; apply ole_none].
  rewrite (H Es w eq_refl) in Hv. assert (v = v') by congruence. subst. apply ole_refl.
Qed.
Lemma shp_assert_nonzero x x' : sm x x' -> shp st eq (cassert_nonzero x) (cassert_nonzero x').
Proof.
  intros H. unfold cassert_nonzero. rewrite <- (sm_as_const _ _ H). destruct (as_const x) eqn:E; [apply shp_passert|].
  eapply shp_bind; [apply shp_inv_value; auto|]. intros v v' Hv. eapply shp_bind; [apply shp_calloc; auto|].
  intros i i' Hi. apply shp_enforce; auto with shp; try reflexivity.
Qed.
Lemma shp_assert_bit x x' : sm x x' -> shp st eq (cassert_bit x) (cassert_bit x').
Proof.
  intros H. unfold cassert_bit. rewrite <- (sm_as_const _ _ H). destruct (as_const x); [apply shp_passert|].
  apply shp_enforce; auto with shp; try reflexivity.
Qed.
Lemma shp_cballoc v v' : (st = true -> ole v v') -> shp st sm (cballoc v) (cballoc v').
Proof.
  intros H. apply shp_calloc. intros E. auto with shp.
Qed.
Lemma shp_cb_assert x x' : sm x x' -> shp st eq (cb_assert x) (cb_assert x').
Proof. apply shp_assert_bit. Qed.
Lemma shp_cb_assert_const x x' b : sm x x' -> shp st eq (cb_assert_const x b) (cb_assert_const x' b).
Proof. apply shp_assert_const. Qed.
Lemma shp_is_zero x x' : sm x x' -> shp st sm (cis_zero x) (cis_zero x').
Proof.
  intros H. unfold cis_zero. rewrite <- (sm_as_const _ _ H). destruct (as_const x) eqn:E.
  { apply shp_ret. auto with shp. }
  eapply shp_bind; [apply shp_inv_value; auto|]. intros v v' Hv. eapply shp_bind; [apply shp_calloc; auto|].
  intros i i' Hi. shp_step shp_assert_nonzero. shp_step shp_cmul. shp_step shp_assert_bit.
  apply shp_ret. auto with shp.
Qed.
Lemma shp_is_eq x y x' y' : sm x x' -> sm y y' -> shp st sm (cis_eq x y) (cis_eq x' y').
Proof. intros. apply shp_is_zero; auto with shp. Qed.
Lemma shp_switch x b y x' b' y' : sm x x' -> sm b b' -> sm y y' -> shp st sm (cswitch x b y) (cswitch x' b' y').
Proof.
  intros Hx Hb Hy. unfold cswitch, cb_as_const. unfold CBool in *. rewrite <- (sm_as_const _ _ Hb).
  destruct (omapM ninto_bool (as_const b)) as [o|]; [|exact I]. cbn [plift pbind].
  destruct o as [[]|]; try (apply shp_ret; auto).
  rewrite (sm_cap _ _ Hx), (sm_cap _ _ Hy). destruct Nat.ltb.
  - shp_step shp_cmul. apply shp_ret. auto with shp.
  - shp_step shp_cmul. apply shp_ret. auto with shp.
Qed.

(** Bits. *)
Notation sml := (Forall2 sm).
Lemma shp_bits_loop (is : list nat) vb vb' : forall k x x', sm x x' ->
  (st = true -> forall i v, In i is -> nth_error vb i = Some v -> exists v', nth_error vb' i = Some v' /\ ole v v') ->
  shp st (fun r r' => sm (fst r) (fst r') /\ sml (snd r) (snd r') /\ length (snd r) = length is)
    (bits_loop is vb k x) (bits_loop is vb' k x').
Proof.
  induction is as [|i is IH]; intros k x x' H Hn; cbn [bits_loop].
  - apply shp_ret. cbn. auto.
  - cbv zeta. eapply shp_bind with (R := fun v v' => st = true -> ole v v').
    + apply shp_lift. intros v Ev. destruct (nth_error vb i) as [o|] eqn:E1; [|discriminate]. cbn in Ev.
      assert (o = v) by congruence. subst o. split.
      * intros E. destruct (Hn E i v (or_introl eq_refl) E1) as [v' [-> _]]. discriminate.
      * intros v' Ev' E. destruct (Hn E i v (or_introl eq_refl) E1) as [v2 [E2 L]]. rewrite E2 in Ev'. cbn in Ev'.
        assert (v2 = v') by congruence. subst. auto.
    + intros v v' Hvv. eapply shp_bind; [apply shp_cballoc; auto|]. intros b b' Hb.
      shp_step shp_cb_assert. eapply shp_bind; [apply IH; auto with shp|].
      * intros E j w Hj. apply Hn; auto. now right.
      * intros r r' [H1 [H2 H3]]. apply shp_ret. cbn. auto.
Qed.
Lemma const_bits_sm is (vb : list bool) : forall k rem r, const_bits_loop is vb k rem = Ok r ->
  sml (@snd F _ r) (snd r) /\ length (snd r) = length is.
Proof.
  induction is as [|i is IH]; intros k rem r H; cbn [const_bits_loop] in H.
  - assert (r = (rem, [])) by congruence. subst. cbn. auto.
  - destruct (nth_error vb i); [|discriminate]. cbn [unwrap rbind] in H. cbv zeta in H.
    destruct (const_bits_loop is _ _ _) eqn:El; [|discriminate]. cbn [rbind] in H.
    assert (r = (fst a, cbconst b :: snd a)) by congruence. subst. destruct (IH _ _ _ El).
    cbn. split; [constructor; [apply sm_const|auto]|auto].
Qed.
Lemma shp_into_bits_len x x' n : sm x x' -> (st = true -> (n <= num_bits p)%nat) ->
  shp st (fun l l' => sml l l' /\ length l = n) (c_into_bits_le x n) (c_into_bits_le x' n).
Proof.
  intros H Hn. unfold c_into_bits_le. rewrite <- (sm_as_const _ _ H). destruct (as_const x) eqn:E.
  - destruct (const_bits_loop _ _ _ _) as [r|] eqn:El; [|exact I]. cbn [plift pbind].
    destruct (nis_zero (fst r)); [|exact I]. cbn [passert pbind]. apply shp_ret.
    destruct (const_bits_sm _ _ _ _ _ El) as [C1 C2]. rewrite seq_length in C2. auto.
  - cbv zeta. eapply shp_bind; [apply shp_bits_loop; auto|].
    + intros Es i v Hi Ev. pose proof (sm_value _ _ H Es) as L. destruct (cvalue x') as [w|].
      * rewrite (L w eq_refl) in Ev. exists v. split; [exact Ev|apply ole_refl].
      * exists None. split; [|apply ole_none]. apply in_seq in Hi. specialize (Hn Es).
        assert (X : (i < length (repeat (@None bool) (num_bits p)))%nat) by (rewrite repeat_length; lia).
        destruct (nth_error (repeat (@None bool) (num_bits p)) i) as [o|] eqn:Eo.
        -- apply nth_error_In, repeat_spec in Eo. now subst.
        -- apply nth_error_None in Eo. lia.
    + intros [rem bits] [rem' bits'] [H1 [H2 H3]]. cbn [fst snd] in *. 
      shp_step shp_assert_bit. destruct n; [exact I|]. apply shp_ret. split; [auto|]. cbn. rewrite H3. cbn. rewrite seq_length. lia.
Qed.
Lemma shp_into_bits x x' n : sm x x' -> (st = true -> (n <= num_bits p)%nat) ->
  shp st sml (c_into_bits_le x n) (c_into_bits_le x' n).
Proof. intros H1 H2. eapply shp_mono; [apply shp_into_bits_len; auto|]. now intros ? ? []. Qed.
Lemma shp_comp_loop n : forall sig sig' ct k acc acc', sml sig sig' -> sm acc acc' ->
  shp st (fun r r' => fst r = fst r' /\ sm (snd r) (snd r')) (comp_loop n sig ct k acc) (comp_loop n sig' ct k acc').
Proof.
  induction n as [|n IH]; intros sig sig' ct k acc acc' Hs Ha; cbn [comp_loop].
  - apply shp_ret. cbn. auto.
  - destruct ct as [|cl [|cu ct]]; try exact I.
    destruct Hs as [|sl sl' sig sig' H1 Hs]; [exact I|]. destruct Hs as [|sh sh' sig sig' H2 Hs]; [exact I|].
    eapply shp_bind; [apply shp_cmul; auto|]. intros lu lu' Hlu. cbv zeta. apply IH; auto.
    apply sm_add_cap; auto. apply sm_mul_num. destruct cl, cu; auto 10 with shp.
Qed.
Lemma shp_nth l l' n : sml l l' -> @shp p _ _ st sm (plift (unwrap (nth_error l n))) (plift (unwrap (nth_error l' n))).
Proof.
  intros H. revert n. induction H as [|c c' l l' Hc H IH]; intros [|n]; cbn; auto.
Qed.
Lemma sml_length l l' : sml l l' -> length l = length l'.
Proof. induction 1; cbn; congruence. Qed.
Lemma shp_comp_constant sig sig' ct : sml sig sig' ->
  (st = true -> (Nat.div2 (length sig) + length sig mod 2 + 1 <= num_bits p)%nat) ->
  shp st sm (c_comp_constant sig ct) (c_comp_constant sig' ct).
Proof.
  intros H Hn. unfold c_comp_constant. cbv zeta. unfold CBool in *. rewrite <- (sml_length _ _ H).
  destruct (Nat.ltb 0 (length sig)); [|exact I]. cbn [passert pbind].
  eapply shp_bind; [apply shp_comp_loop; [|apply sm_const]|].
  - apply Forall2_app; auto. destruct Nat.eqb; auto. constructor; auto. apply sm_const.
  - intros [k acc] [k' acc'] [E Ha]. cbn [fst snd] in E, Ha. subst k'.
    eapply shp_bind; [apply shp_into_bits; auto with shp|]. intros bits bits' Hb. now apply shp_nth.
Qed.
Lemma shp_into_bits_strict x x' : sm x x' -> (st = true -> (2 <= num_bits p)%nat) ->
  shp st sml (c_into_bits_le_strict x) (c_into_bits_le_strict x').
Proof.
  intros H Hn. unfold c_into_bits_le_strict.
  eapply shp_bind; [apply shp_into_bits_len; auto|]. intros l l' [Hl El].
  eapply shp_bind; [apply shp_comp_constant; auto|].
  - intros Es. specialize (Hn Es). rewrite El. rewrite Nat.div2_div.
    pose proof (Nat.div_mod_eq (num_bits p) 2). pose proof (Nat.mod_upper_bound (num_bits p) 2). lia.
  - intros c c' Hc. shp_step shp_cb_assert_const. now apply shp_ret.
Qed.
Lemma sm_from_bits_loop l l' : sml l l' -> forall k acc acc', sm acc acc' ->
  sm (from_bits_loop l k acc) (from_bits_loop l' k acc').
Proof.
  induction 1 as [|c c' l l' Hc Hl IH]; intros k acc acc' Ha; cbn [from_bits_loop]; auto.
  cbv zeta. apply IH. auto with shp.
Qed.
Lemma shp_from_bits l l' : sml l l' -> @shp p _ _ st sm (plift (c_from_bits_le l)) (plift (c_from_bits_le l')).
Proof.
  intros H. unfold c_from_bits_le. destruct H as [|c c' l l' Hc H]; [exact I|]. cbn [plift]. apply shp_ret.
  apply sm_from_bits_loop; auto with shp.
Qed.
Lemma shp_pmapM {A B A' B'} (R : A -> A' -> Prop) (T : B -> B' -> Prop) (f : A -> prog p B) (f' : A' -> prog p B') l l' :
  Forall2 R l l' -> (forall a a', R a a' -> shp st T (f a) (f' a')) -> shp st (Forall2 T) (pmapM f l) (pmapM f' l').
Proof.
  intros Hl Hf. induction Hl as [|a a' l l' Ha Hl IH]; cbn [pmapM]; [apply shp_ret; constructor|].
  eapply shp_bind; [apply Hf; auto|]. intros b b' Hb. eapply shp_bind; [exact IH|]. intros bs bs' Hbs.
  apply shp_ret. constructor; auto.
Qed.
Lemma shp_mux3 s s' (c : list (list F)) : sml s s' -> shp st sml (c_mux3 s c) (c_mux3 s' c).
Proof.
  intros H. unfold c_mux3. destruct H as [|a0 b0 s s' H0 H]; [exact I|]. destruct H as [|a1 b1 s s' H1 H]; [exact I|].
  destruct H as [|a2 b2 s s' H2 H]; [exact I|]. destruct H; [|exact I].
  destruct forallb; [|exact I]. cbn [passert pbind]. shp_step shp_cmul.
  eapply shp_pmapM with (R := eq).
  - clear. induction c; constructor; auto.
  - intros col ? <-. unfold mux3_col. cbv zeta. eapply shp_bind; [apply shp_cmul; auto 20 with shp|].
    intros t t' Ht. apply shp_ret. auto 20 with shp.
Qed.
End ShpGadgets.

#[export] Hint Resolve sm_const sm_add sm_sub sm_add_cap sm_add_rv sm_neg sm_add_num sm_sub_num sm_num_sub sm_mul_num sm_same : shp.
#[export] Hint Extern 1 (sm _ czero czero) => apply sm_const : shp.
#[export] Hint Extern 1 (sm _ cone cone) => apply sm_const : shp.
#[export] Hint Extern 1 (sm _ (cbconst _) (cbconst _)) => apply sm_const : shp.
