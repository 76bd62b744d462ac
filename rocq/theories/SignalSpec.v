(** Composite signals act on their leaves. *)

From Verif Require Export Signal NumSpec.
Open Scope num_scope.

Scheme sty_mind := Induction for sty Sort Prop
  with stys_mind := Induction for stys Sort Prop.
Combined Scheme sty_both from sty_mind, stys_mind.

(** Programs with the same calls and related results. *)
Inductive peq {p A B} (R : A -> B -> Prop) : prog p A -> prog p B -> Prop :=
| pq_ret a b : R a b -> peq R (Ret a) (Ret b)
| pq_panic : peq R PPanic PPanic
| pq_alloc v k k' : (forall i, peq R (k i) (k' i)) -> peq R (Alloc v k) (Alloc v k')
| pq_input v k k' : (forall i, peq R (k i) (k' i)) -> peq R (AllocInput v k) (AllocInput v k')
| pq_enf a b c k k' : peq R k k' -> peq R (Enforce a b c k) (Enforce a b c k').

Lemma peq_mono {p A B} (R T : A -> B -> Prop) (m : prog p A) (m' : prog p B) :
  peq R m m' -> (forall a b, R a b -> T a b) -> peq T m m'.
Proof. intros H HT. induction H; constructor; auto. Qed.
Lemma peq_refl {p A} (m : prog p A) : peq eq m m.
Proof. induction m; constructor; auto. Qed.
Lemma peq_bind {p A B C D} (R : A -> B -> Prop) (T : C -> D -> Prop) (m : prog p A) (m' : prog p B) f g :
  peq R m m' -> (forall a b, R a b -> peq T (f a) (g b)) -> peq T (pbind m f) (pbind m' g).
Proof. intros H HT. induction H; cbn [pbind]; try constructor; auto. Qed.
Lemma peq_trans {p A B C} (R : A -> B -> Prop) (T : B -> C -> Prop) (m : prog p A) (m' : prog p B) (m'' : prog p C) :
  peq R m m' -> peq T m' m'' -> peq (fun a c => exists b, R a b /\ T b c) m m''.
Proof.
  intros H. revert m''. induction H; intros m'' H2; inversion H2; subst; constructor; eauto.
Qed.
Lemma peq_sym {p A B} (R : A -> B -> Prop) (m : prog p A) (m' : prog p B) : peq R m m' -> peq (fun b a => R a b) m' m.
Proof. intros H. induction H; constructor; auto. Qed.
Lemma peq_r {p A B} (R : A -> B -> Prop) (m : prog p A) (m' m'' : prog p B) : peq R m m' -> peq eq m' m'' -> peq R m m''.
Proof. intros H H2. eapply peq_mono; [eapply peq_trans; eauto|]. intros a c [b [E ->]]; auto. Qed.
Lemma peq_l {p A B} (R : A -> B -> Prop) (m m' : prog p A) (m'' : prog p B) : peq eq m m' -> peq R m' m'' -> peq R m m''.
Proof. intros H H2. eapply peq_mono; [eapply peq_trans; eauto|]. intros a c [b [-> E]]; auto. Qed.
Lemma peq_assoc {p A B C} (m : prog p A) (f : A -> prog p B) (g : B -> prog p C) :
  peq eq (pbind (pbind m f) g) (pbind m (fun a => pbind (f a) g)).
Proof. induction m; cbn [pbind]; try constructor; auto using peq_refl. Qed.
Lemma peq_unit {p A} (m : prog p A) : peq eq (pbind m Ret) m.
Proof. induction m; cbn [pbind]; constructor; auto. Qed.

Lemma peq_exec {p A B} (R : A -> B -> Prop) (m : prog p A) (m' : prog p B) : peq R m m' ->
  forall U tr o, exec U m tr o -> exists o', exec U m' tr o' /\
    match o, o' with Some a, Some b => R a b | None, None => True | _, _ => False end.
Proof.
  intros H. induction H; intros U tr o He; inversion He; subst.
  - exists (Some b). split; [constructor|auto].
  - exists None. split; [constructor|auto].
  - match goal with He : exec _ (k _) _ _ |- _ => destruct (H0 _ _ _ _ He) as [o' [H1 H2]] end. exists o'. split; [now constructor|auto].
  - match goal with He : exec _ (k _) _ _ |- _ => destruct (H0 _ _ _ _ He) as [o' [H1 H2]] end. exists o'. split; [now constructor|auto].
  - match goal with He : exec _ k _ _ |- _ => destruct (IHpeq _ _ _ He) as [o' [H1 H2]] end. exists o'. split; [now constructor|auto].
Qed.

Lemma peq_mapM_app {p A B} (f : A -> prog p B) l l' :
  peq eq (pmapM f (l ++ l')) (a <-- pmapM f l ;; b <-- pmapM f l' ;; Ret (a ++ b)).
Proof.
  induction l as [|x l IH]; cbn [app pmapM pbind].
  - eapply peq_l; [|apply peq_refl]. apply peq_mono with (R := fun a b => a = b); [|auto].
    apply peq_sym. eapply peq_mono; [apply peq_unit|auto].
  - eapply peq_r; [|apply peq_mono with (R := fun a b => b = a); [apply peq_sym, peq_assoc|auto]].
    eapply peq_bind; [apply peq_refl|]. intros a ? <-.
    eapply peq_r; [|apply peq_mono with (R := fun a b => b = a); [apply peq_sym, peq_assoc|auto]].
    eapply peq_l; [eapply peq_bind; [exact IH|]; intros ? ? <-; apply peq_refl|].
    eapply peq_l; [apply peq_assoc|].
    eapply peq_bind; [apply peq_refl|]. intros c ? <-. cbn [pbind].
    eapply peq_l; [apply peq_assoc|]. cbn [pbind]. apply peq_refl.
Qed.

Lemma peq_iter_app {p A} (f : A -> prog p unit) l l' : peq eq (piter f (l ++ l')) (piter f l ;;; piter f l').
Proof.
  unfold piter. induction l as [|x l IH]; cbn [app pfold pbind]; [apply peq_refl|].
  eapply peq_r; [|apply peq_mono with (R := fun a b => b = a); [apply peq_sym, peq_assoc|auto]].
  eapply peq_bind; [apply peq_refl|]. intros [] ? <-. exact IH.
Qed.

Section Lists.
Context {p : positive}.

Lemma peq_mapM_flat {A B C D} (f : A -> prog p B) (g : C -> prog p D) (cl : A -> list C) (V : B -> list D) (P : B -> Prop) l :
  (forall a, In a l -> peq (fun b ds => P b /\ V b = ds) (f a) (pmapM g (cl a))) ->
  peq (fun bs ds => length bs = length l /\ Forall P bs /\ flat_map V bs = ds) (pmapM f l) (pmapM g (flat_map cl l)).
Proof.
  induction l as [|a l IH]; intros H; cbn [pmapM flat_map]; [constructor; auto|].
  eapply peq_r; [|apply peq_mono with (R := fun a b => b = a); [apply peq_sym, peq_mapM_app|auto]].
  eapply peq_bind; [apply H; now left|]. intros b ds [H1 H2].
  eapply peq_bind; [apply IH; intros; apply H; now right|]. intros bs ds' [H3 [H4 H5]].
  constructor. cbn [length flat_map]. subst. auto.
Qed.
Lemma peq_iter_flat {A C} (f : A -> prog p unit) (g : C -> prog p unit) (cl : A -> list C) l :
  (forall a, In a l -> peq eq (f a) (piter g (cl a))) -> peq eq (piter f l) (piter g (flat_map cl l)).
Proof.
  induction l as [|a l IH]; intros H; cbn [flat_map]; [apply peq_refl|].
  eapply peq_r; [|apply peq_mono with (R := fun a b => b = a); [apply peq_sym, peq_iter_app|auto]].
  unfold piter at 1. cbn [pfold]. eapply peq_bind; [apply H; now left|]. intros [] ? <-.
  apply IH. intros; apply H; now right.
Qed.
Lemma combine_app {A B} (a a' : list A) (b b' : list B) : length a = length b ->
  combine (a ++ a') (b ++ b') = combine a b ++ combine a' b'.
Proof. revert b. induction a as [|x a IH]; intros [|y b]; cbn; intros E; try discriminate; auto. rewrite IH; auto. Qed.
Lemma combine_flat {A B C D} (f : A -> list C) (g : B -> list D) n l m :
  length l = length m -> (forall a, In a l -> length (f a) = n) -> (forall b, In b m -> length (g b) = n) ->
  combine (flat_map f l) (flat_map g m) = flat_map (fun ab => combine (f (fst ab)) (g (snd ab))) (combine l m).
Proof.
  revert m. induction l as [|a l IH]; intros [|b m] E Hl Hm; try discriminate; auto.
  cbn [flat_map combine fst snd]. rewrite combine_app, IH; auto; cbn in *; auto.
  rewrite Hl, Hm; auto.
Qed.
End Lists.

Section Signals.
Context {p : positive}.
Notation F := (Num p).

(** The circuit numbers a signal is made of, the field elements a value is made
    of, in the order of the declaration. *)
Fixpoint leaves (t : sty) : sig p t -> list (CNum p) :=
  match t with
  | TNum | TBool => fun x => [x]
  | TVec _ t => fun l => flat_map (leaves t) l
  | TProd ts => leavess ts
  end
with leavess (ts : stys) : sigs p ts -> list (CNum p) :=
  match ts with TNil => fun _ => [] | TCons t ts => fun x => leaves t (fst x) ++ leavess ts (snd x) end.
Fixpoint vleaves (t : sty) : val p t -> list F :=
  match t with
  | TNum => fun x => [x]
  | TBool => fun b => [if b then 1 else 0]
  | TVec _ t => fun l => flat_map (vleaves t) l
  | TProd ts => vleavess ts
  end
with vleavess (ts : stys) : vals p ts -> list F :=
  match ts with TNil => fun _ => [] | TCons t ts => fun x => vleaves t (fst x) ++ vleavess ts (snd x) end.
(** Number of leaves *)
Fixpoint tsize (t : sty) : nat :=
  match t with TNum | TBool => 1 | TVec L t => L * tsize t | TProd ts => tsizes ts end
with tsizes (ts : stys) : nat :=
  match ts with TNil => 0 | TCons t ts => tsize t + tsizes ts end.
(** Vectors have the length their type says. *)
Fixpoint sized (t : sty) : sig p t -> Prop :=
  match t with
  | TNum | TBool => fun _ => True
  | TVec L t => fun l => length l = L /\ Forall (sized t) l
  | TProd ts => sizeds ts
  end
with sizeds (ts : stys) : sigs p ts -> Prop :=
  match ts with TNil => fun _ => True | TCons t ts => fun x => sized t (fst x) /\ sizeds ts (snd x) end.
Fixpoint vsized (t : sty) : val p t -> Prop :=
  match t with
  | TNum | TBool => fun _ => True
  | TVec L t => fun l => length l = L /\ Forall (vsized t) l
  | TProd ts => vsizeds ts
  end
with vsizeds (ts : stys) : vals p ts -> Prop :=
  match ts with TNil => fun _ => True | TCons t ts => fun x => vsized t (fst x) /\ vsizeds ts (snd x) end.
(** No vector of length zero and no empty product *)
Fixpoint noempty (t : sty) : Prop :=
  match t with TNum | TBool => True | TVec L t => L <> O /\ noempty t | TProd TNil => False | TProd ts => noemptys ts end
with noemptys (ts : stys) : Prop :=
  match ts with TNil => True | TCons t ts => noempty t /\ noemptys ts end.
(** No vector *)
Fixpoint novec (t : sty) : Prop :=
  match t with TNum | TBool => True | TVec _ _ => False | TProd ts => novecs ts end
with novecs (ts : stys) : Prop :=
  match ts with TNil => True | TCons t ts => novec t /\ novecs ts end.

Lemma flat_map_len {A B} (f : A -> list B) n l : Forall (fun a => length (f a) = n) l -> length (flat_map f l) = (length l * n)%nat.
Proof. induction 1 as [|a l H _ IH]; cbn; auto. now rewrite app_length, H, IH. Qed.

Lemma leaves_len_both :
  (forall t (x : sig p t), sized t x -> length (leaves t x) = tsize t) /\
  (forall ts (x : sigs p ts), sizeds ts x -> length (leavess ts x) = tsizes ts).
Proof.
  apply sty_both; cbn; auto.
  - intros L t IH l [<- Hl]. apply flat_map_len. eapply Forall_impl; [|exact Hl]. auto.
  - intros t IH ts IHs x [H1 H2]. rewrite app_length, IH, IHs; auto.
Qed.
Definition leaves_len := proj1 leaves_len_both. Definition leavess_len := proj2 leaves_len_both.
Lemma vleaves_len_both :
  (forall t (x : val p t), vsized t x -> length (vleaves t x) = tsize t) /\
  (forall ts (x : vals p ts), vsizeds ts x -> length (vleavess ts x) = tsizes ts).
Proof.
  apply sty_both; cbn; auto.
  - intros L t IH l [<- Hl]. apply flat_map_len. eapply Forall_impl; [|exact Hl]. auto.
  - intros t IH ts IHs x [H1 H2]. rewrite app_length, IH, IHs; auto.
Qed.
Definition vleaves_len := proj1 vleaves_len_both. Definition vleavess_len := proj2 vleaves_len_both.

Definition leafR t (r : sig p t) (l : list (CNum p)) : Prop := sized t r /\ leaves t r = l.
Definition leafRs ts (r : sigs p ts) (l : list (CNum p)) : Prop := sizeds ts r /\ leavess ts r = l.

Lemma sv_from_iter_ok {A} L (l : list A) : length l = L -> sv_from_iter L l = Ok l.
Proof. intros <-. unfold sv_from_iter. now rewrite Nat.eqb_refl. Qed.
Lemma sv_from_iter_bad {A} L (l : list A) : length l <> L -> sv_from_iter L l = Panic.
Proof. intros H. unfold sv_from_iter. now rewrite (proj2 (Nat.eqb_neq _ _) H). Qed.

Lemma sv_collect_peq {A} L (m : prog p (list A)) (m' : prog p (list (CNum p))) (R : list A -> list (CNum p) -> Prop) n :
  n = L -> peq (fun bs ds => length bs = n /\ R bs ds) m m' -> peq (fun bs ds => length bs = L /\ R bs ds) (sv_collect L m) m'.
Proof.
  intros -> H. unfold sv_collect. eapply peq_r; [|apply peq_unit].
  eapply peq_bind; [exact H|]. intros a b [Ha Hb]. rewrite sv_from_iter_ok by auto. constructor; auto.
Qed.

(** alloc *)
Lemma alloc_some_both :
  (forall t (v : val p t), vsized t v -> peq (leafR t) (s_alloc t (Some v)) (pmapM calloc (map Some (vleaves t v)))) /\
  (forall ts (v : vals p ts), vsizeds ts v -> peq (leafRs ts) (s_allocs ts (Some v)) (pmapM calloc (map Some (vleavess ts v)))).
Proof.
  apply sty_both.
  - intros v _. cbn. constructor; intros i. constructor. split; cbn; auto.
  - intros v _. cbn. constructor; intros i. constructor. split; cbn; auto.
  - intros L t IH v [E H]. cbn [s_alloc vleaves]. unfold leafR.
    eapply peq_mono; [eapply (sv_collect_peq L _ _ (fun bs ds => Forall (sized t) bs /\ flat_map (leaves t) bs = ds)); [exact E|]|].
    + replace (map Some (flat_map (vleaves t) v)) with (flat_map (fun v => map Some (vleaves t v)) v).
      2:{ clear. induction v; cbn; auto. rewrite map_app. congruence. }
      apply peq_mapM_flat. intros a Ha. rewrite Forall_forall in H. apply IH; auto.
    + cbn. tauto.
  - intros ts IH v H. apply IH, H.
  - intros v _. constructor. split; cbn; auto.
  - intros t IH ts IHs v [H1 H2]. cbn [s_allocs vleavess option_map]. rewrite map_app.
    eapply peq_r; [|apply peq_mono with (R := fun a b => b = a); [apply peq_sym, peq_mapM_app|auto]].
    eapply peq_bind; [apply IH, H1|]. intros x l [Hx <-]. eapply peq_bind; [apply IHs, H2|]. intros xs l [Hxs <-].
    constructor. split; cbn; auto.
Qed.
Lemma alloc_none_both :
  (forall t, peq (leafR t) (s_alloc t None) (pmapM calloc (repeat None (tsize t)))) /\
  (forall ts, peq (leafRs ts) (s_allocs ts None) (pmapM calloc (repeat None (tsizes ts)))).
Proof.
  apply sty_both.
  - cbn. constructor; intros i. constructor. split; cbn; auto.
  - cbn. constructor; intros i. constructor. split; cbn; auto.
  - intros L t IH. cbn [s_alloc tsize]. unfold leafR.
    eapply peq_mono; [eapply (sv_collect_peq L _ _ (fun bs ds => Forall (sized t) bs /\ flat_map (leaves t) bs = ds)); [apply seq_length|]|].
    + replace (repeat None (L * tsize t)) with (flat_map (fun _ : nat => @repeat (option F) None (tsize t)) (seq 0 L)).
      2:{ generalize 0%nat. induction L as [|L IHL]; intros n; cbn [seq flat_map Nat.mul]; auto. now rewrite IHL, repeat_app. }
      apply peq_mapM_flat. intros a Ha. apply IH.
    + cbn. tauto.
  - intros ts IH. apply IH.
  - constructor. split; cbn; auto.
  - intros t IH ts IHs. cbn [s_allocs tsizes option_map]. rewrite repeat_app.
    eapply peq_r; [|apply peq_mono with (R := fun a b => b = a); [apply peq_sym, peq_mapM_app|auto]].
    eapply peq_bind; [apply IH|]. intros x l [Hx <-]. eapply peq_bind; [apply IHs|]. intros xs l [Hxs <-].
    constructor. split; cbn; auto.
Qed.

(** from_const *)
Lemma from_const_both :
  (forall t (v : val p t), vsized t v -> exists x, s_from_const t v = Ok x /\ sized t x /\ leaves t x = map cconst (vleaves t v)) /\
  (forall ts (v : vals p ts), vsizeds ts v -> exists x, s_from_consts ts v = Ok x /\ sizeds ts x /\ leavess ts x = map cconst (vleavess ts v)).
Proof.
  apply sty_both.
  - intros v _. cbn. eauto.
  - intros v _. cbn. eexists; split; [reflexivity|]; cbn; auto.
  - intros L t IH v [E H]. cbn [s_from_const s_from_consts].
    assert (exists l, rmapM (s_from_const t) v = Ok l /\ length l = length v /\ Forall (sized t) l /\
      flat_map (leaves t) l = map cconst (flat_map (vleaves t) v)) as [l [E1 [E2 [E3 E4]]]].
    { clear E. induction H as [|x v Hx _ IHv]; cbn [rmapM]; [exists []; cbn; auto|].
      destruct (IH x Hx) as [y [-> [S1 L1]]]. destruct IHv as [l [-> [S2 [S3 S4]]]]. cbn.
      exists (y :: l). cbn. rewrite map_app. repeat split; auto; congruence. }
    rewrite E1. cbn [rbind]. rewrite sv_from_iter_ok by congruence. exists l. cbn [sized leaves vleaves]. split; [reflexivity|]. split; [split; [exact (eq_trans E2 E)|exact E3]|exact E4].
  - intros ts IH v H. apply IH, H.
  - intros v _. exists tt. cbn. auto.
  - intros t IH ts IHs v. change (vals p (TCons t ts)) with (val p t * vals p ts)%type in v. destruct v as [v vs]. intros [H1 H2].
    change (vsized t v) in H1. change (vsizeds ts vs) in H2. 
    change (s_from_consts (TCons t ts) (v, vs)) with (x <-? s_from_const t v ; xs <-? s_from_consts ts vs ; Ok (x, xs)). destruct (IH _ H1) as [x [-> [S1 L1]]]. destruct (IHs _ H2) as [xs [-> [S2 L2]]].
    cbn. exists (x, xs). cbn. rewrite map_app. repeat split; auto; congruence.
Qed.

(** switch *)
Lemma switch_both (bit : CBool p) :
  (forall t (x y : sig p t), sized t x -> sized t y ->
     peq (leafR t) (s_switch t x bit y) (pmapM (fun ab => cswitch (fst ab) bit (snd ab)) (combine (leaves t x) (leaves t y)))) /\
  (forall ts (x y : sigs p ts), sizeds ts x -> sizeds ts y ->
     peq (leafRs ts) (s_switchs ts x bit y) (pmapM (fun ab => cswitch (fst ab) bit (snd ab)) (combine (leavess ts x) (leavess ts y)))).
Proof.
  apply sty_both.
  - intros x y _ _. cbn [s_switch leaves combine pmapM pbind fst snd]. eapply peq_l with (m' := pbind (cswitch x bit y) Ret).
    + apply peq_mono with (R := fun a b => b = a); [apply peq_sym, peq_unit|auto].
    + eapply peq_bind; [apply peq_refl|]. intros a ? <-. cbn. constructor. split; cbn; auto.
  - intros x y _ _. cbn [s_switch leaves combine pmapM pbind fst snd]. eapply peq_l with (m' := pbind (cswitch x bit y) Ret).
    + apply peq_mono with (R := fun a b => b = a); [apply peq_sym, peq_unit|auto].
    + eapply peq_bind; [apply peq_refl|]. intros a ? <-. cbn. constructor. split; cbn; auto.
  - intros L t IH x y [Ex Hx] [Ey Hy]. cbn [s_switch leaves]. unfold leafR.
    rewrite Forall_forall in Hx, Hy.
    eapply peq_mono; [eapply (sv_collect_peq L _ _ (fun bs ds => Forall (sized t) bs /\ flat_map (leaves t) bs = ds) (length (combine x y))); [rewrite combine_length; lia|]|].
    + rewrite (combine_flat (leaves t) (leaves t) (tsize t)); [|exact (eq_trans Ex (eq_sym Ey))|auto using leaves_len..].
      apply peq_mapM_flat. intros [a b] Ha. cbn [fst snd]. apply IH; [apply Hx|apply Hy].
      * exact (in_combine_l _ _ _ _ Ha).
      * exact (in_combine_r _ _ _ _ Ha).
    + cbn. tauto.
  - intros ts IH x y. apply IH.
  - intros x y _ _. constructor. split; cbn; auto.
  - intros t IH ts IHs x y [H1 H2] [H3 H4]. cbn [s_switchs leavess]. rewrite combine_app by now rewrite !leaves_len.
    eapply peq_r; [|apply peq_mono with (R := fun a b => b = a); [apply peq_sym, peq_mapM_app|auto]].
    eapply peq_bind; [apply IH; auto|]. intros a l [Ha <-]. eapply peq_bind; [apply IHs; auto|]. intros b l [Hb <-].
    constructor. split; cbn; auto.
Qed.

(** The assertions and inputize *)
Lemma iter_one {A} (f : A -> prog p unit) x : peq eq (f x) (piter f [x]).
Proof.
  unfold piter. cbn [pfold]. generalize (f x) as m. induction m as [[]| | | |]; cbn [pbind]; constructor; auto.
Qed.
Lemma assert_const_both :
  (forall t (x : sig p t) v, sized t x -> vsized t v ->
     peq eq (s_assert_const t x v) (piter (fun ab => cassert_const (fst ab) (snd ab)) (combine (leaves t x) (vleaves t v)))) /\
  (forall ts (x : sigs p ts) v, sizeds ts x -> vsizeds ts v ->
     peq eq (s_assert_consts ts x v) (piter (fun ab => cassert_const (fst ab) (snd ab)) (combine (leavess ts x) (vleavess ts v)))).
Proof.
  apply sty_both.
  - intros x v _ _. apply (iter_one (fun ab => cassert_const (fst ab) (snd ab)) (x, v)).
  - intros x v _ _. apply (iter_one (fun ab => cassert_const (fst ab) (snd ab)) (x, nbool v)).
  - intros L t IH x v [Ex Hx] [Ev Hv]. cbn [s_assert_const leaves vleaves].
    rewrite Forall_forall in Hx, Hv.
    rewrite (combine_flat (leaves t) (vleaves t) (tsize t)); [|exact (eq_trans Ex (eq_sym Ev))|auto using leaves_len, vleaves_len..].
    apply peq_iter_flat. intros [a b] Ha. cbn [fst snd]. apply IH; [apply Hx|apply Hv].
    + exact (in_combine_l _ _ _ _ Ha).
    + exact (in_combine_r _ _ _ _ Ha).
  - intros ts IH x v. apply IH.
  - intros x v _ _. apply peq_refl.
  - intros t IH ts IHs x v [H1 H2] [H3 H4]. cbn [s_assert_consts leavess vleavess]. rewrite combine_app by now rewrite leaves_len, vleaves_len.
    eapply peq_r; [|apply peq_mono with (R := fun a b => b = a); [apply peq_sym, peq_iter_app|auto]].
    eapply peq_bind; [apply IH; auto|]. intros [] ? <-. apply IHs; auto.
Qed.
Lemma assert_eq_both :
  (forall t (x y : sig p t), sized t x -> sized t y ->
     peq eq (s_assert_eq t x y) (piter (fun ab => cassert_eq (fst ab) (snd ab)) (combine (leaves t x) (leaves t y)))) /\
  (forall ts (x y : sigs p ts), sizeds ts x -> sizeds ts y ->
     peq eq (s_assert_eqs ts x y) (piter (fun ab => cassert_eq (fst ab) (snd ab)) (combine (leavess ts x) (leavess ts y)))).
Proof.
  apply sty_both.
  - intros x v _ _. apply (iter_one (fun ab => cassert_eq (fst ab) (snd ab)) (x, v)).
  - intros x v _ _. apply (iter_one (fun ab => cassert_eq (fst ab) (snd ab)) (x, v)).
  - intros L t IH x v [Ex Hx] [Ev Hv]. cbn [s_assert_eq leaves].
    rewrite Forall_forall in Hx, Hv.
    rewrite (combine_flat (leaves t) (leaves t) (tsize t)); [|exact (eq_trans Ex (eq_sym Ev))|auto using leaves_len..].
    apply peq_iter_flat. intros [a b] Ha. cbn [fst snd]. apply IH; [apply Hx|apply Hv].
    + exact (in_combine_l _ _ _ _ Ha).
    + exact (in_combine_r _ _ _ _ Ha).
  - intros ts IH x v. apply IH.
  - intros x v _ _. apply peq_refl.
  - intros t IH ts IHs x v [H1 H2] [H3 H4]. cbn [s_assert_eqs leavess]. rewrite combine_app by now rewrite !leaves_len.
    eapply peq_r; [|apply peq_mono with (R := fun a b => b = a); [apply peq_sym, peq_iter_app|auto]].
    eapply peq_bind; [apply IH; auto|]. intros [] ? <-. apply IHs; auto.
Qed.
Lemma inputize_both :
  (forall t (x : sig p t), peq eq (s_inputize t x) (piter cinputize (leaves t x))) /\
  (forall ts (x : sigs p ts), peq eq (s_inputizes ts x) (piter cinputize (leavess ts x))).
Proof.
  apply sty_both.
  - intros x. apply (iter_one cinputize).
  - intros x. apply (iter_one cinputize).
  - intros L t IH x. cbn [s_inputize leaves]. apply peq_iter_flat. auto.
  - intros ts IH x. apply IH.
  - intros x. apply peq_refl.
  - intros t IH ts IHs x. cbn [s_inputizes leavess].
    eapply peq_r; [|apply peq_mono with (R := fun a b => b = a); [apply peq_sym, peq_iter_app|auto]].
    eapply peq_bind; [apply IH; auto|]. intros [] ? <-. apply IHs; auto.
Qed.

(** linearize *)
Lemma linearize_both :
  (forall t (x : sig p t) acc, s_linearize_builder t x acc = acc ++ leaves t x) /\
  (forall ts (x : sigs p ts) acc, s_linearize_builders ts x acc = acc ++ leavess ts x).
Proof.
  apply sty_both; auto.
  - intros L t IH x. cbn [s_linearize_builder leaves]. induction x as [|a x IHx]; intros acc; cbn [fold_left flat_map]; [now rewrite app_nil_r|].
    now rewrite IHx, IH, app_assoc.
  - intros x acc. cbn. now rewrite app_nil_r.
  - intros t IH ts IHs x acc. cbn [s_linearize_builders leavess]. now rewrite IHs, IH, app_assoc.
Qed.
Lemma linearize_leaves t (x : sig p t) : s_linearize t x = leaves t x.
Proof. unfold s_linearize. now rewrite (proj1 linearize_both). Qed.

(** get_value and as_const *)
Section Get.
Variable f : CNum p -> option F.
Hypothesis Hp : prime (Zpos p).

Lemma n10 : (1 : F) <> 0.
Proof. exact (n1_neq_n0 Hp). Qed.
Lemma ninto_bool_iff (v : F) b : ninto_bool v = Ok b <-> v = nbool b.
Proof.
  unfold ninto_bool. destruct (neqb v 0) eqn:E.
  - apply neqb_eq in E; subst. destruct b; cbn; split; try congruence. intros X; symmetry in X; now apply n10 in X.
  - apply neqb_neq in E. destruct (neqb v 1) eqn:E1.
    + apply neqb_eq in E1; subst. destruct b; cbn; split; congruence.
    + apply neqb_neq in E1. destruct b; cbn; split; congruence.
Qed.

Lemma get_some_both :
  (forall t (x : sig p t) v, sized t x ->
     (s_get f t x = Ok (Some v) <-> vsized t v /\ map f (leaves t x) = map Some (vleaves t v))) /\
  (forall ts (x : sigs p ts) v, sizeds ts x ->
     (s_gets f ts x = Ok (Some v) <-> vsizeds ts v /\ map f (leavess ts x) = map Some (vleavess ts v))).
Proof using Hp.
  apply sty_both.
  - intros x v _. cbn. split; [intros E; split; [auto|]; congruence|intros [_ E]; congruence].
  - intros x v _. cbn [s_get s_gets vsized vsizeds leaves leavess vleaves vleavess map]. destruct (f x) as [c|]; cbn [omapM rmap].
    + destruct (ninto_bool c) as [b|] eqn:E; cbn.
      * pose proof E as E'. apply ninto_bool_iff in E'. split; [intros X; inversion X; subst; auto|].
        intros [_ X]. assert (c = nbool v) by (unfold nbool; congruence). apply ninto_bool_iff in H. congruence.
      * split; [discriminate|]. intros [_ X]. assert (c = nbool v) by (unfold nbool; congruence). apply ninto_bool_iff in H. congruence.
    + split; [discriminate|]. intros [_ X]. discriminate.
  - intros L t IH x v [Ex Hx]. cbn [s_get s_gets vsized vsizeds leaves leavess vleaves vleavess].
    assert (G : forall v, ocollect (s_get f t) x = Ok (v, true) <->
      length v = length x /\ Forall (vsized t) v /\ map f (flat_map (leaves t) x) = map Some (flat_map (vleaves t) v)).
    { clear Ex v. induction Hx as [|a x Ha Hx IHx]; intros v; cbn [ocollect].
      - split; [intros E; inversion E; cbn; auto|]. intros [E _]. destruct v; [reflexivity|discriminate].
      - split.
        + destruct (s_get f t a) as [[b|]|] eqn:Ea; cbn [rbind]; try discriminate.
          destruct (ocollect (s_get f t) x) as [[bs k]|]; cbn [rbind fst snd]; [|discriminate].
          intros E. inversion E; subst v k. destruct (proj1 (IHx bs) eq_refl) as [I1 [I2 I3]].
          destruct (proj1 (IH a b Ha) Ea) as [J1 J2]. cbn [length flat_map]. rewrite !map_app. repeat split; auto; congruence.
        + destruct v as [|b v]; [intros [X _]; discriminate|]. intros [H1 [H2 H3]].
          inversion H2; subst. cbn [flat_map] in H3. rewrite !map_app in H3.
          assert (length (map f (leaves t a)) = length (map (@Some F) (vleaves t b))) as EL
            by now rewrite !map_length, leaves_len, vleaves_len.
          apply app_eq_app in H3 as [l [[E1 E2]|[E1 E2]]].
          * rewrite E1, app_length in EL. destruct l; [|cbn in EL; lia]. rewrite app_nil_r in E1. cbn in E2.
            rewrite (proj2 (IH a b Ha)) by auto. cbn [rbind]. rewrite (proj2 (IHx v)); [reflexivity|]. repeat split; auto; cbn in H1; congruence.
          * rewrite E1, app_length in EL. destruct l; [|cbn in EL; lia]. rewrite app_nil_r in E1. cbn in E2.
            rewrite (proj2 (IH a b Ha)) by auto. cbn [rbind]. rewrite (proj2 (IHx v)); [reflexivity|]. repeat split; auto; cbn in H1; congruence. }
    split.
    + destruct (ocollect (s_get f t) x) as [[bs k]|] eqn:Eo; cbn [rbind fst snd]; [|discriminate].
      unfold sv_from_iter. destruct (Nat.eqb (length bs) L) eqn:El; cbn; [|discriminate].
      destruct k; [|discriminate]. intros E. assert (bs = v) as -> by congruence. apply Nat.eqb_eq in El.
      destruct (proj1 (G v) eq_refl) as [I1 [I2 I3]]. split; [split; [exact El|exact I2]|exact I3].
    + intros [[H1 H2] H3]. rewrite (proj2 (G v)) by (split; [exact (eq_trans H1 (eq_sym Ex))|auto]). cbn [rbind fst snd].
      now rewrite sv_from_iter_ok.
  - intros ts IH x v. apply IH.
  - intros x [] _. cbn. tauto.
  - intros t IH ts IHs x v. change (vals p (TCons t ts)) with (val p t * vals p ts)%type in v. destruct v as [v vs].
    change (sigs p (TCons t ts)) with (sig p t * sigs p ts)%type in x. destruct x as [x xs]. intros [H1 H2].
    change (sized t x) in H1. change (sizeds ts xs) in H2.
    change (s_gets f (TCons t ts) (x, xs)) with (a <-? s_get f t x ; match a with None => Ok None
      | Some a => b <-? s_gets f ts xs ; Ok (option_map (fun b => (a, b)) b) end).
    change (vsizeds (TCons t ts) (v, vs)) with (vsized t v /\ vsizeds ts vs).
    change (leavess (TCons t ts) (x, xs)) with (leaves t x ++ leavess ts xs).
    change (vleavess (TCons t ts) (v, vs)) with (vleaves t v ++ vleavess ts vs). rewrite !map_app. split.
    + destruct (s_get f t x) as [[b|]|] eqn:Ea; cbn [rbind]; try discriminate.
      destruct (s_gets f ts xs) as [[bs|]|] eqn:Eb; cbn [rbind option_map]; try discriminate.
      intros E. assert (b = v /\ bs = vs) as [-> ->] by (split; congruence).
      apply IH in Ea as [I1 I2]; auto. apply IHs in Eb as [J1 J2]; auto. repeat split; auto; congruence.
    + intros [[I1 I2] I3].
      assert (length (map f (leaves t x)) = length (map (@Some F) (vleaves t v))) as EL
        by now rewrite !map_length, leaves_len, vleaves_len.
      apply app_eq_app in I3 as [l [[E1 E2]|[E1 E2]]]; rewrite E1, app_length in EL; (destruct l; [|cbn in EL; lia]);
        rewrite app_nil_r in E1; cbn in E2;
        rewrite (proj2 (IH x v H1)) by auto; cbn [rbind]; rewrite (proj2 (IHs xs vs H2)) by auto; reflexivity.
Qed.

Lemma ocollect_len {A B} (g : A -> res (option B)) l r : ocollect g l = Ok r ->
  (snd r = true -> length (fst r) = length l) /\ (snd r = false -> (length (fst r) < length l)%nat).
Proof.
  revert r. induction l as [|a l IH]; intros r; cbn [ocollect].
  - intros E; inversion E; cbn. split; auto; discriminate.
  - destruct (g a) as [[b|]|]; cbn [rbind]; try discriminate.
    + destruct (ocollect g l) as [r'|]; cbn [rbind]; [|discriminate]. intros E; inversion E; subst; cbn [fst snd length].
      destruct (IH r' eq_refl) as [I1 I2]. split; intros H; [rewrite I1; auto|specialize (I2 H); lia].
    + intros E; inversion E; cbn. split; [discriminate|lia].
Qed.
(** A vector never gives None. *)
Lemma get_vec_not_none L t (x : sig p (TVec L t)) : length x = L -> s_get f (TVec L t) x <> Ok None.
Proof.
  intros E. cbn [s_get s_gets]. destruct (ocollect (s_get f t) x) as [r|] eqn:Eo; cbn [rbind]; [|discriminate].
  apply ocollect_len in Eo as [H1 H2]. destruct (snd r) eqn:Er.
  - rewrite sv_from_iter_ok by now rewrite H1. discriminate.
  - rewrite sv_from_iter_bad; [discriminate|]. apply Nat.lt_neq. eapply Nat.lt_le_trans; [exact (H2 eq_refl)|]. apply Nat.eq_le_incl. exact E.
Qed.
(** A product without vectors gives None if a component is missing. *)
Definition boolish (o : option F) := match o with Some v => v = 0 \/ v = 1 | None => True end.
Fixpoint boolok (t : sty) : sig p t -> Prop :=
  match t with
  | TNum => fun _ => True
  | TBool => fun x => boolish (f x)
  | TVec _ t => fun l => Forall (boolok t) l
  | TProd ts => boolsok ts
  end
with boolsok (ts : stys) : sigs p ts -> Prop :=
  match ts with TNil => fun _ => True | TCons t ts => fun x => boolok t (fst x) /\ boolsok ts (snd x) end.
Lemma get_none_both :
  (forall t (x : sig p t), novec t -> boolok t x -> (s_get f t x <> Panic) /\ (s_get f t x = Ok None <-> In None (map f (leaves t x)))) /\
  (forall ts (x : sigs p ts), novecs ts -> boolsok ts x -> (s_gets f ts x <> Panic) /\ (s_gets f ts x = Ok None <-> In None (map f (leavess ts x)))).
Proof using Hp.
  apply sty_both.
  - intros x _ _. cbn. split; [discriminate|]. split; [intros E; left; congruence|intros [E|[]]; congruence].
  - intros x _ Hb. cbn in *. unfold boolish in Hb. destruct (f x) as [c|]; cbn [omapM rmap].
    + assert (exists b, ninto_bool c = Ok b) as [b ->].
      { destruct Hb as [->| ->]; [exists false|exists true]; now apply ninto_bool_iff. }
      cbn. split; [discriminate|]. split; [discriminate|intros [E|[]]; discriminate].
    + split; [discriminate|]. split; auto.
  - intros L t IH x [].
  - intros ts IH x. apply IH.
  - intros x _ _. cbn. split; [discriminate|]. split; [discriminate|tauto].
  - intros t IH ts IHs x. change (sigs p (TCons t ts)) with (sig p t * sigs p ts)%type in x. destruct x as [x xs]. intros [N1 N2] [B1 B2].
    change (boolok t x) in B1. change (boolsok ts xs) in B2.
    change (s_gets f (TCons t ts) (x, xs)) with (a <-? s_get f t x ; match a with None => Ok None
      | Some a => b <-? s_gets f ts xs ; Ok (option_map (fun b => (a, b)) b) end).
    change (leavess (TCons t ts) (x, xs)) with (leaves t x ++ leavess ts xs). rewrite map_app, in_app_iff.
    destruct (IH _ N1 B1) as [P1 Q1]. destruct (IHs _ N2 B2) as [P2 Q2]. rewrite <- Q1, <- Q2.
    destruct (s_get f t x) as [[a|]|]; cbn [rbind]; [|split; [discriminate|]; tauto|congruence].
    destruct (s_gets f ts xs) as [[b|]|]; cbn [rbind option_map]; [| |congruence].
    + split; [discriminate|]. split; [discriminate|intros [E|E]; discriminate].
    + split; [discriminate|]. tauto.
Qed.
End Get.

Lemma get_cs_both :
  (forall t (x : sig p t), noempty t -> sized t x -> s_get_cs t x = Ok tt) /\
  (forall ts (x : sigs p ts), ts <> TNil -> noemptys ts -> sizeds ts x -> s_get_css ts x = Ok tt).
Proof.
  apply sty_both; auto.
  - intros L t IH x [N1 N2] [Ex Hx]. change (sig p (TVec L t)) with (list (sig p t)) in x. destruct x as [|a x]; [cbn in Ex; congruence|].
    inversion Hx; subst. cbn. apply IH; auto.
  - intros [|t ts] IH x N S; [destruct N|]. apply IH; auto. discriminate.
  - intros H; contradiction.
  - intros t IH ts IHs x _ [N _] [S _]. apply IH; auto.
Qed.

Section IsEq.
Variable Hp : prime (Zpos p).
Set Default Proof Using "Hp".
Add Field sg_field : (num_field Hp) (morphism (@num_morph p), constants [num_cst], power_tac (@num_power p) [num_pow_cst]).
Variables (md : mode) (s : Index -> F).
Let eqs (l m : list (CNum p)) := forallb (fun ab => neqb (ceval s (fst ab)) (ceval s (snd ab))) (combine l m).

Lemma nbool_and (a b : bool) : nbool a * nbool b = nbool (a && b) :> F.
Proof. destruct a, b; cbn; ring. Qed.
Lemma eqs_app l l' m m' : length l = length m -> eqs (l ++ l') (m ++ m') = eqs l m && eqs l' m'.
Proof. intros. unfold eqs. now rewrite combine_app, forallb_app. Qed.

Definition acc_ok S0 (acc : CNum p) (b : bool) : Prop := good md s S0 acc /\ (md <> Setup -> ceval s acc = nbool b).
Lemma acc_step S0 acc e b v : okS s S0 -> acc_ok S0 acc b -> post_eval md s S0 e (nbool v) ->
  wp md s S0 (cmul acc e) (fun S1 r => acc_ok S1 r (b && v)).
Proof.
  intros HS [G1 E1] [G2 E2]. eapply wp_mono; [apply (wp_cmul Hp); auto|]. intros S1 r _ [G E]. split; auto.
  intros Hm. rewrite E, E1, E2 by auto. apply nbool_and.
Qed.

Lemma is_eq_both :
  (forall t S0 (x y : sig p t), noempty t -> okS s S0 -> sized t x -> sized t y ->
     Forall (good md s S0) (leaves t x) -> Forall (good md s S0) (leaves t y) ->
     wp md s S0 (s_is_eq t x y) (fun S1 r => post_eval md s S1 r (nbool (eqs (leaves t x) (leaves t y))))) /\
  (forall ts S0 (x y : sigs p ts) acc b, noemptys ts -> okS s S0 -> sizeds ts x -> sizeds ts y -> acc_ok S0 acc b ->
     Forall (good md s S0) (leavess ts x) -> Forall (good md s S0) (leavess ts y) ->
     wp md s S0 (s_is_eqs ts x y acc) (fun S1 r => post_eval md s S1 r (nbool (b && eqs (leavess ts x) (leavess ts y))))).
Proof.
  apply sty_both.
  - intros S0 x y _ HS _ _ Gx Gy. inversion Gx; inversion Gy; subst. unfold eqs. cbn. rewrite Bool.andb_true_r.
    apply (wp_is_eq Hp); auto.
  - intros S0 x y _ HS _ _ Gx Gy. inversion Gx; inversion Gy; subst. unfold eqs. cbn. rewrite Bool.andb_true_r.
    apply (wp_is_eq Hp); auto.
  - intros L t IH S0 x y N HS Sx Sy Gx Gy.
    change (s_is_eq (TVec L t) x y) with (plift (s_get_cs (TVec L t) x) ;;;
      pfold (fun acc i => a <-- plift (sv_index x i) ;; b <-- plift (sv_index y i) ;; e <-- s_is_eq t a b ;; cmul acc e) (seq 0 L) cone).
    rewrite (proj1 get_cs_both _ _ N Sx). cbn [plift pbind].
    destruct N as [_ N]. destruct Sx as [Lx Sx], Sy as [Ly Sy].
    change (sig p (TVec L t)) with (list (sig p t)) in x, y. change (length x = L) in Lx. change (length y = L) in Ly.
    change (leaves (TVec L t) x) with (flat_map (leaves t) x) in *. change (leaves (TVec L t) y) with (flat_map (leaves t) y) in *.
    assert (G : forall x' y' x1 y1 S0 acc b, x = x1 ++ x' -> y = y1 ++ y' -> length x1 = length y1 -> length x' = length y' ->
      okS s S0 -> acc_ok S0 acc b ->
      Forall (good md s S0) (flat_map (leaves t) x') -> Forall (good md s S0) (flat_map (leaves t) y') ->
      wp md s S0 (pfold (fun acc i => a <-- plift (sv_index x i) ;; b <-- plift (sv_index y i) ;; e <-- s_is_eq t a b ;; cmul acc e)
         (seq (length x1) (length x')) acc)
        (fun S1 r => post_eval md s S1 r (nbool (b && eqs (flat_map (leaves t) x') (flat_map (leaves t) y'))))).
    { clear Gx Gy HS S0. induction x' as [|a x' IHx]; intros [|a' y'] x1 y1 S0 acc b Ex Ey E1 E2 HS [A1 A2] Gx Gy; try discriminate.
      - cbn [length seq pfold]. apply wp_ret. unfold eqs. cbn. rewrite Bool.andb_true_r. split; auto.
      - cbn [length seq pfold]. rewrite wp_bind.
        assert (sv_index x (length x1) = Ok a) as -> by (subst x; unfold sv_index; rewrite nth_error_app2, Nat.sub_diag by auto; reflexivity).
        assert (sv_index y (length x1) = Ok a') as -> by (subst y; unfold sv_index; rewrite E1, nth_error_app2, Nat.sub_diag by auto; reflexivity).
        cbn [plift pbind]. rewrite wp_bind. cbn [flat_map] in *. apply Forall_app in Gx as [Ga Gx]. apply Forall_app in Gy as [Ga' Gy].
        assert (sized t a) as Sa by (rewrite Forall_forall in Sx; apply Sx; subst x; apply in_or_app; right; now left).
        assert (sized t a') as Sa' by (rewrite Forall_forall in Sy; apply Sy; subst y; apply in_or_app; right; now left).
        eapply wp_mono; [apply IH; auto|]. intros S1 e I1 He.
        eapply wp_mono; [apply acc_step; [eapply okS_incl; eauto| |exact He]|].
        { split; [eapply good_incl; eauto|exact A2]. }
        intros S2 r I2 Hr. rewrite eqs_app by now rewrite !leaves_len. rewrite Bool.andb_assoc.
        replace (S (length x1)) with (length (x1 ++ [a])) by (rewrite app_length; cbn; lia).
        apply (IHx y' (x1 ++ [a]) (y1 ++ [a'])).
        + now rewrite <- app_assoc.
        + now rewrite <- app_assoc.
        + rewrite !app_length. cbn. lia.
        + cbn in E2. lia.
        + eapply okS_incl; [exact HS|]. eapply incl_tran; eauto.
        + exact Hr.
        + eapply Forall_impl; [|exact Gx]. intros c Hc. eapply good_incl; [exact Hc|]. eapply incl_tran; eauto.
        + eapply Forall_impl; [|exact Gy]. intros c Hc. eapply good_incl; [exact Hc|]. eapply incl_tran; eauto. }
    rewrite <- Lx. apply (G x y [] [] S0 cone true); auto; try congruence.
    split; [apply good_const; auto|]. intros _. apply ceval_one. apply HS.
  - intros ts IH S0 x y N HS Sx Sy Gx Gy. change (s_is_eq (TProd ts) x y) with (plift (s_get_css ts x) ;;; s_is_eqs ts x y cone).
    rewrite (proj2 get_cs_both ts x); [|destruct ts; [destruct N|discriminate]|destruct ts; [destruct N|exact N]|exact Sx].
    cbn [plift pbind]. apply (IH S0 x y cone true); auto.
    + destruct ts; [destruct N|exact N].
    + split; [apply good_const; auto|]. intros _. apply ceval_one. apply HS.
  - intros S0 x y acc b _ HS _ _ [A1 A2] _ _. cbn. rewrite Bool.andb_true_r. split; auto.
  - intros t IH ts IHs S0 x y acc b [N1 N2] HS [Sx1 Sx2] [Sy1 Sy2] [A1 A2] Gx Gy.
    change (sigs p (TCons t ts)) with (sig p t * sigs p ts)%type in x, y. destruct x as [x xs], y as [y ys].
    change (s_is_eqs (TCons t ts) (x, xs) (y, ys) acc) with (e <-- s_is_eq t x y ;; acc <-- cmul acc e ;; s_is_eqs ts xs ys acc).
    change (leavess (TCons t ts) (x, xs)) with (leaves t x ++ leavess ts xs) in *.
    change (leavess (TCons t ts) (y, ys)) with (leaves t y ++ leavess ts ys) in *.
    change (sized t x) in Sx1. change (sized t y) in Sy1. change (sizeds ts xs) in Sx2. change (sizeds ts ys) in Sy2.
    apply Forall_app in Gx as [Gx Gxs]. apply Forall_app in Gy as [Gy Gys].
    rewrite wp_bind. eapply wp_mono; [apply IH; auto|]. intros S1 e I1 He. rewrite wp_bind.
    eapply wp_mono; [apply acc_step; [eapply okS_incl; eauto| |exact He]|].
    { split; [eapply good_incl; eauto|exact A2]. }
    intros S2 r I2 Hr. rewrite eqs_app by now rewrite !leaves_len. rewrite Bool.andb_assoc.
    apply IHs; auto.
    + eapply okS_incl; [exact HS|]. eapply incl_tran; eauto.
    + eapply Forall_impl; [|exact Gxs]. intros c Hc. eapply good_incl; [exact Hc|]. eapply incl_tran; eauto.
    + eapply Forall_impl; [|exact Gys]. intros c Hc. eapply good_incl; [exact Hc|]. eapply incl_tran; eauto.
Qed.
End IsEq.
End Signals.
