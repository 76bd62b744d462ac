(** Facts about linear combinations: the cursor loops of add_assign and
    sub_assign merge sorted term lists. *)

From Coq Require Import Sorted Permutation.
From Verif Require Export Circuit FieldTheory.

Lemma ieqb_eq a b : ieqb a b = true <-> a = b.
Proof.
  destruct a, b; cbn; rewrite ?Nat.eqb_eq; split; intros; try congruence.
Qed.
Lemma ieqb_refl a : ieqb a a = true.
Proof. now apply ieqb_eq. Qed.
Lemma ieqb_neq a b : ieqb a b = false <-> a <> b.
Proof. rewrite <- ieqb_eq. destruct (ieqb a b); split; congruence. Qed.
Lemma ieq_dec (a b : Index) : {a = b} + {a <> b}.
Proof. destruct (ieqb a b) eqn:E; [left; now apply ieqb_eq | right; now apply ieqb_neq]. Qed.

Definition ilt (a b : Index) : Prop := icmp a b = Lt.

Lemma ilt_irrefl a : ~ ilt a a.
Proof. destruct a; unfold ilt; cbn; rewrite Nat.compare_lt_iff; lia. Qed.
Lemma ilt_trans a b c : ilt a b -> ilt b c -> ilt a c.
Proof.
  destruct a, b, c; unfold ilt; cbn; rewrite ?Nat.compare_lt_iff; try congruence; lia.
Qed.
Lemma ilt_cases a b : ieqb a b = false -> igtb a b = false -> ilt a b.
Proof.
  unfold igtb, ilt. destruct a, b; cbn; try congruence;
    destruct (Nat.compare_spec n n0); try congruence; subst; rewrite Nat.eqb_refl; congruence.
Qed.
Lemma igtb_ilt a b : igtb a b = true <-> ilt b a.
Proof.
  unfold igtb, ilt. destruct a, b; cbn; try (split; congruence);
  rewrite (Nat.compare_antisym n n0); destruct (Nat.compare n n0); cbn; split; congruence.
Qed.
Lemma ilt_eqb a b : ilt a b -> ieqb a b = false.
Proof. intros H. apply ieqb_neq. intros ->. now apply ilt_irrefl in H. Qed.
Lemma ilt_gtb a b : ilt a b -> igtb a b = false.
Proof.
  intros H. destruct (igtb a b) eqn:E; auto. apply igtb_ilt in E.
  exfalso. eapply ilt_irrefl, ilt_trans; eauto.
Qed.
Lemma ilt_I0 i : i <> I0 -> ilt I0 i.
Proof.
  destruct i as [[|n]|n]; unfold ilt; cbn; congruence.
Qed.
Lemma not_ilt_I0 i : ~ ilt i I0.
Proof. destruct i; unfold ilt; cbn; [|congruence]. rewrite Nat.compare_lt_iff. lia. Qed.

Section LC.
Context {p : positive}.
Notation F := (Num p).
Add Ring lc_ring : (@num_ring p) (morphism (@num_morph p), constants [num_cst], power_tac (@num_power p) [num_pow_cst]).
Open Scope num_scope.

(** Value of a linear combination under an assignment of the variables. *)
Definition leval (s : Index -> F) (l : lcT p) : F :=
  fold_right (fun kv acc => snd kv * s (fst kv) + acc) 0 l.
Lemma leval_nil s : leval s [] = 0. Proof. reflexivity. Qed.
Lemma leval_cons s k v l : leval s ((k, v) :: l) = v * s k + leval s l. Proof. reflexivity. Qed.
Definition ceval (s : Index -> F) (c : CNum p) : F := leval s (clc c).

(** Coefficient of a variable. *)
Definition coef (l : lcT p) (i : Index) : F :=
  fold_right (fun kv acc => if ieqb (fst kv) i then snd kv + acc else acc) 0 l.

Lemma coef_nil i : coef [] i = 0. Proof. reflexivity. Qed.
Lemma coef_cons k v l i : coef ((k, v) :: l) i = if ieqb k i then v + coef l i else coef l i.
Proof. reflexivity. Qed.
Arguments leval : simpl never.
Arguments coef : simpl never.

Definition lsorted (l : lcT p) : Prop := StronglySorted (fun x y => ilt (fst x) (fst y)) l.
(** Canonical form: strictly increasing variables, zero coefficients only on
    the constant-one variable. *)
Definition canonical (l : lcT p) : Prop :=
  lsorted l /\ (forall k v, In (k, v) l -> v = 0 -> k = I0).

Lemma leval_app s l l' : leval s (l ++ l') = leval s l + leval s l'.
Proof. induction l as [|[k v] l IH]; cbn [app]; rewrite ?leval_nil, ?leval_cons; [ring|]. rewrite IH. ring. Qed.
Lemma leval_rev s l : leval s (rev l) = leval s l.
Proof. induction l as [|[k v] l IH]; cbn [rev]; [reflexivity|]. rewrite leval_app, IH, !leval_cons, leval_nil. ring. Qed.

Lemma coef_app l l' i : coef (l ++ l') i = coef l i + coef l' i.
Proof. induction l as [|[k v] l IH]; cbn [app]; rewrite ?coef_nil, ?coef_cons; [ring|]. rewrite IH. destruct ieqb; ring. Qed.

Lemma coef_notin l i : (forall v, ~ In (i, v) l) -> coef l i = 0.
Proof.
  induction l as [|[k v] l IH]; rewrite ?coef_nil, ?coef_cons; intros H; [reflexivity|].
  destruct (ieqb k i) eqn:E.
  - apply ieqb_eq in E; subst. exfalso. apply (H v). now left.
  - apply IH. intros v' Hv. apply (H v'). now right.
Qed.

(** The plain merge of two sorted lists. *)
Fixpoint merge1 (g : F -> F -> F) (f : F -> F) (kv : Index * F) (rest : lcT p) (go : lcT p -> lcT p) : lcT p :=
  match rest with
  | [] => (fst kv, f (snd kv)) :: go []
  | (k', v') :: r' =>
      if ieqb k' (fst kv) then
        (if nis_zero (g v' (snd kv)) then go r' else (k', g v' (snd kv)) :: go r')
      else if igtb k' (fst kv) then (fst kv, f (snd kv)) :: go rest
      else (k', v') :: merge1 g f kv r' go
  end.
Fixpoint smerge (g : F -> F -> F) (f : F -> F) (b a : lcT p) : lcT p :=
  match b with
  | [] => a
  | kv :: b' => merge1 g f kv a (smerge g f b')
  end.

Lemma lsorted_cons kv l : lsorted (kv :: l) <-> lsorted l /\ (forall k v, In (k, v) l -> ilt (fst kv) k).
Proof.
  unfold lsorted. split.
  - intros H. apply StronglySorted_inv in H as [H1 H2]. split; auto.
    intros k v Hin. rewrite Forall_forall in H2. apply (H2 _ Hin).
  - intros [H1 H2]. constructor; auto. apply Forall_forall. intros [k v] Hin. eapply H2; eauto.
Qed.

Lemma ll_lookup_eval s n (bef aft : lcT p) b' a' r :
  ll_lookup n bef aft = (b', a', r) -> leval s b' + leval s a' = leval s bef + leval s aft.
Proof.
  revert bef. induction aft as [|[k v] aft IH]; cbn; intros bef H.
  - inversion H; subst. reflexivity.
  - destruct ieqb; [inversion H; subst; reflexivity|].
    destruct igtb; [inversion H; subst; reflexivity|].
    rewrite (IH _ H), !leval_cons. ring.
Qed.
Lemma ll_lookup_add n (bef aft : lcT p) b' a' :
  ll_lookup n bef aft = (b', a', true) -> exists v r, a' = (n, v) :: r.
Proof.
  revert bef. induction aft as [|[k v] aft IH]; cbn; intros bef H.
  - inversion H.
  - destruct (ieqb k n) eqn:E; [inversion H; subst; apply ieqb_eq in E; subst; eauto|].
    destruct igtb; [inversion H|]. eauto.
Qed.

(** Evaluation needs no ordering hypothesis at all. *)
Lemma merge_step_eval s g f (sg : F) cur kv :
  (forall x y, g x y = x + sg * y) -> (forall y, f y = sg * y) ->
  let cur' := merge_step g f cur kv in
  leval s (fst cur') + leval s (snd cur') =
  leval s (fst cur) + leval s (snd cur) + sg * (snd kv * s (fst kv)).
Proof.
  intros Hg Hf. destruct kv as [k v]. cbn [fst snd].
  unfold merge_step. destruct (ll_lookup k (fst cur) (snd cur)) as [[b' a'] r] eqn:E.
  pose proof (ll_lookup_eval s _ _ _ _ _ _ E) as HE. destruct r.
  - destruct (ll_lookup_add _ _ _ _ _ E) as [v' [r' ->]]. cbv zeta.
    rewrite leval_cons in HE. destruct (nis_zero (g v' v)) eqn:Z.
    + apply nis_zero_eq in Z. rewrite Hg in Z. cbn [fst snd].
      rewrite <- HE.
      assert (X : v' = - (sg * v)) by (replace v' with (v' + sg * v - sg * v) by ring; rewrite Z; ring).
      rewrite X. ring.
    + cbn [fst snd]. rewrite leval_cons, Hg, <- HE. ring.
  - assert (Q : leval s b' + leval s ((k, f v) :: a') = leval s b' + leval s a' + sg * (v * s k)).
    { rewrite leval_cons, Hf. ring. }
    destruct a' as [|[? ?] ?]; cbn [fst snd]; rewrite <- HE; exact Q.
Qed.

Lemma merge_lc_eval s g f (sg : F) a b :
  (forall x y, g x y = x + sg * y) -> (forall y, f y = sg * y) ->
  leval s (merge_lc g f a b) = leval s a + sg * leval s b.
Proof.
  intros Hg Hf. unfold merge_lc.
  assert (H : forall b cur, let cur' := fold_left (merge_step g f) b cur in
     leval s (fst cur') + leval s (snd cur') = leval s (fst cur) + leval s (snd cur) + sg * leval s b).
  { induction b0 as [|kv b0 IH]; intros cur; cbn [fold_left].
    - rewrite leval_nil. ring.
    - cbv zeta. rewrite IH. rewrite (merge_step_eval s g f sg) by auto. destruct kv; cbn [fst snd]. rewrite leval_cons. ring. }
  specialize (H b ([], a)). cbv zeta in H.
  destruct (fold_left (merge_step g f) b ([], a)) as [bef aft]. cbn [fst snd] in H.
  rewrite leval_app, leval_rev, H, leval_nil. ring.
Qed.

(** The cursor loop is the merge, on sorted arguments. *)
Lemma smerge_skip g f b : forall k v a,
  (forall k' v', In (k', v') b -> ilt k k') ->
  smerge g f b ((k, v) :: a) = (k, v) :: smerge g f b a.
Proof.
  induction b as [|[k1 v1] b IH]; intros k v a Hlt.
  - reflexivity.
  - assert (ilt k k1) by (eapply Hlt; left; reflexivity).
    cbn [smerge merge1 fst snd]. rewrite ilt_eqb, ilt_gtb by auto. reflexivity.
Qed.

Lemma lookup_smerge g f b : forall aft k v bef b' a' r,
  ll_lookup k bef aft = (b', a', r) ->
  rev bef ++ smerge g f ((k, v) :: b) aft = rev b' ++ smerge g f ((k, v) :: b) a'.
Proof.
  induction aft as [|[k' v'] aft IH]; intros k v bef b' a' r H; cbn in H.
  - inversion H; subst; reflexivity.
  - destruct (ieqb k' k) eqn:E1; [inversion H; subst; reflexivity|].
    destruct (igtb k' k) eqn:E2; [inversion H; subst; reflexivity|].
    rewrite <- (IH _ _ _ _ _ _ H). cbn [smerge merge1 fst snd]. rewrite E1, E2.
    cbn [rev]. rewrite <- app_assoc. reflexivity.
Qed.
Lemma lookup_insert (aft : lcT p) : forall k bef b' a',
  ll_lookup k bef aft = (b', a', false) ->
  match a' with [] => True | (k', _) :: _ => ieqb k' k = false /\ igtb k' k = true end.
Proof.
  induction aft as [|[k' v'] aft IH]; intros k bef b' a' H; cbn in H.
  - inversion H; subst; exact I.
  - destruct (ieqb k' k) eqn:E1; [inversion H|].
    destruct (igtb k' k) eqn:E2; [inversion H; subst; split; assumption|]. exact (IH _ _ _ _ H).
Qed.

Lemma merge_step_smerge g f b cur k v :
  (forall k' v', In (k', v') b -> ilt k k') ->
  let cur' := merge_step g f cur (k, v) in
  rev (fst cur) ++ smerge g f ((k, v) :: b) (snd cur) = rev (fst cur') ++ smerge g f b (snd cur').
Proof.
  intros Hlt cur'. unfold cur', merge_step.
  destruct (ll_lookup k (fst cur) (snd cur)) as [[b' a'] r] eqn:E.
  rewrite (lookup_smerge g f b _ _ v _ _ _ _ E). destruct r.
  - destruct (ll_lookup_add _ _ _ _ _ E) as [v' [r' ->]].
    cbn [smerge merge1 fst snd]. rewrite ieqb_refl. destruct nis_zero; cbn [fst snd]; f_equal.
    now rewrite smerge_skip.
  - pose proof (lookup_insert _ _ _ _ _ E) as HI.
    destruct a' as [|[k' v'] a'].
    + cbn [fst snd smerge merge1]. rewrite smerge_skip by auto. reflexivity.
    + destruct HI as [H1 H2]. cbn [fst snd smerge merge1]. rewrite H1, H2.
      rewrite (smerge_skip g f b k) by auto. reflexivity.
Qed.

Theorem merge_lc_smerge g f a b :
  lsorted b -> merge_lc g f a b = smerge g f b a.
Proof.
  intros Hb. unfold merge_lc.
  assert (H : forall b cur, lsorted b ->
      let cur' := fold_left (merge_step g f) b cur in
      rev (fst cur') ++ snd cur' = rev (fst cur) ++ smerge g f b (snd cur)).
  { induction b0 as [|[k v] b0 IH]; intros cur Hs; cbn [fold_left].
    - reflexivity.
    - cbv zeta. apply lsorted_cons in Hs as [Hs1 Hs2]. rewrite IH by auto.
      symmetry. apply merge_step_smerge. auto. }
  specialize (H b ([], a) Hb). cbv zeta in H.
  destruct (fold_left (merge_step g f) b ([], a)) as [bef aft]. exact H.
Qed.

(** Variables of a merge come from its operands. *)
Lemma smerge_in g f b : forall a k v,
  In (k, v) (smerge g f b a) -> (exists v', In (k, v') a) \/ (exists v', In (k, v') b).
Proof.
  induction b as [|[k1 v1] b IHb]; intros a k v; cbn [smerge].
  - eauto.
  - induction a as [|[k2 v2] a IHa]; cbn [merge1 fst snd].
    + intros [H|H]; [inversion H; subst; right; exists v1; now left|].
      apply IHb in H as [[? []]|[v' H]]. right; exists v'; now right.
    + destruct (ieqb k2 k1) eqn:E1.
      * assert (Hg : In (k, v) (smerge g f b a) ->
           (exists v', In (k, v') ((k2, v2) :: a)) \/ (exists v', In (k, v') ((k1, v1) :: b))).
        { intros H. apply IHb in H as [[v' H]|[v' H]]; [left|right]; exists v'; now right. }
        destruct nis_zero; auto. intros [H|H]; auto. inversion H; subst. left; exists v2; now left.
      * destruct (igtb k2 k1).
        -- intros [H|H]; [inversion H; subst; right; exists v1; now left|].
           apply IHb in H as [[v' H]|[v' H]]; [left; eauto|right; exists v'; now right].
        -- intros [H|H]; [inversion H; subst; left; exists v; now left|].
           apply IHa in H as [[v' H]|[v' H]]; [left; exists v'; now right|right; eauto].
Qed.

Lemma smerge_sorted g f b : forall a, lsorted a -> lsorted b -> lsorted (smerge g f b a).
Proof.
  induction b as [|[k1 v1] b IHb]; intros a Ha Hb; cbn [smerge]; auto.
  pose proof Hb as Hb0. apply lsorted_cons in Hb as [Hb1 Hb2]. cbn [fst] in Hb2.
  induction a as [|[k2 v2] a IHa]; cbn [merge1 fst snd].
  - apply lsorted_cons. split; [apply IHb; auto; constructor|].
    intros k v H. apply smerge_in in H as [[? []]|[v' H]]. eapply Hb2; eauto.
  - pose proof Ha as Ha0. apply lsorted_cons in Ha as [Ha1 Ha2]. cbn [fst] in Ha2.
    destruct (ieqb k2 k1) eqn:E1.
    + apply ieqb_eq in E1; subst. destruct nis_zero; auto.
      apply lsorted_cons; split; auto. cbn [fst].
      intros k v H. apply smerge_in in H as [[v' H]|[v' H]]; eauto.
    + destruct (igtb k2 k1) eqn:E2.
      * apply igtb_ilt in E2. apply lsorted_cons; split; auto. cbn [fst].
        intros k v H. apply smerge_in in H as [[v' H]|[v' H]]; eauto.
        destruct H as [H|H]; [inversion H; subst; auto|]. eapply ilt_trans; eauto.
      * pose proof (ilt_cases _ _ E1 E2). apply lsorted_cons; split; auto. cbn [fst].
        intros k v H'. apply (smerge_in g f ((k1, v1) :: b)) in H' as [[v' H']|[v' H']]; eauto.
        destruct H' as [H'|H']; [inversion H'; subst; auto|]. eapply ilt_trans; eauto.
Qed.

Lemma smerge_zero g f b : forall a,
  (forall v, f v = 0 -> v = 0) ->
  (forall k v, In (k, v) a -> v = 0 -> k = I0) ->
  (forall k v, In (k, v) b -> v = 0 -> k = I0) ->
  forall k v, In (k, v) (smerge g f b a) -> v = 0 -> k = I0.
Proof.
  induction b as [|[k1 v1] b IHb]; intros a Hf Ha Hb; cbn [smerge]; auto.
  assert (Hb' : forall k v, In (k, v) b -> v = 0 -> k = I0) by (intros; eapply Hb; eauto; now right).
  induction a as [|[k2 v2] a IHa]; cbn [merge1 fst snd]; intros k v.
  - intros [H|H] Hz.
    + inversion H; subst. eapply Hb; [now left|]. auto.
    + apply (IHb []) with (v := v); auto.
  - assert (Ha' : forall k v, In (k, v) a -> v = 0 -> k = I0) by (intros; eapply Ha; eauto; now right).
    destruct (ieqb k2 k1) eqn:E1.
    + destruct nis_zero eqn:Z.
      * apply IHb; auto.
      * intros [H|H] Hz; [|eapply IHb; eauto].
        assert (Hx : g v2 v1 = v) by (now inversion H). rewrite Hz in Hx.
        apply nis_zero_neq in Z. contradiction.
    + destruct (igtb k2 k1).
      * intros [H|H] Hz; [|eapply (IHb ((k2, v2) :: a)); eauto].
        inversion H; subst. eapply Hb; [now left|]. auto.
      * intros [H|H] Hz; [inversion H; subst; eapply Ha; eauto; now left|].
        eapply IHa; eauto.
Qed.

Lemma coef_sorted_lt k v l i :
  lsorted ((k, v) :: l) -> ieqb i k = true \/ ilt i k -> coef l i = 0.
Proof.
  intros H Hi. apply coef_notin. intros v' Hin.
  apply lsorted_cons in H as [_ H]. specialize (H _ _ Hin). cbn [fst] in H.
  destruct Hi as [Hi|Hi].
  - apply ieqb_eq in Hi; subst. now apply ilt_irrefl in H.
  - eapply ilt_irrefl, ilt_trans; eauto.
Qed.

(** Commutativity of the merge with +. *)
Lemma smerge_comm (a b : lcT p) :
  lsorted a -> lsorted b ->
  smerge nadd (fun v => v) b a = smerge nadd (fun v => v) a b.
Proof.
  revert b. induction a as [|[k2 v2] a IHa]; intros b.
  - intros _. induction b as [|[k1 v1] b IHb]; intros Hb; [reflexivity|].
    apply lsorted_cons in Hb as [Hb1 Hb2]. cbn [smerge merge1 fst snd]. f_equal.
    rewrite IHb by auto. reflexivity.
  - intros Ha Hb. pose proof Ha as Ha0. apply lsorted_cons in Ha as [Ha1 Ha2]. cbn [fst] in Ha2.
    induction b as [|[k1 v1] b IHb].
    + cbn [smerge merge1 fst snd]. f_equal.
      specialize (IHa [] Ha1 Hb). cbn in IHa. exact IHa.
    + pose proof Hb as Hb0. apply lsorted_cons in Hb as [Hb1 Hb2]. cbn [fst] in Hb2.
      specialize (IHb Hb1).
      cbn [smerge merge1 fst snd].
      destruct (ieqb k2 k1) eqn:E1.
      * apply ieqb_eq in E1; subst. rewrite ieqb_refl.
        replace (v1 + v2) with (v2 + v1) by ring.
        destruct nis_zero; [|f_equal]; apply IHa; auto.
      * destruct (ieqb k1 k2) eqn:E1'; [apply ieqb_eq in E1'; subst; rewrite ieqb_refl in E1; discriminate|].
        destruct (igtb k2 k1) eqn:E2.
        -- apply igtb_ilt in E2. rewrite (ilt_gtb k1 k2) by auto. f_equal.
           rewrite IHb. reflexivity.
        -- pose proof (ilt_cases _ _ E1 E2) as L. rewrite (proj2 (igtb_ilt k1 k2) L). f_equal.
           specialize (IHa ((k1, v1) :: b) Ha1 Hb0). cbn [smerge] in IHa. exact IHa.
Qed.

Lemma leval_map s (h : F -> F) (sg : F) l :
  (forall x, h x = sg * x) ->
  leval s (map (fun kv => (fst kv, h (snd kv))) l) = sg * leval s l.
Proof.
  intros H. induction l as [|[k v] l IH]; cbn [map fst snd]; rewrite ?leval_nil, ?leval_cons; [ring|].
  rewrite IH, H. ring.
Qed.
Lemma map_in (h : F -> F) (l : lcT p) k v :
  In (k, v) (map (fun kv => (fst kv, h (snd kv))) l) <-> exists v', In (k, v') l /\ v = h v'.
Proof.
  rewrite in_map_iff. split.
  - intros [[k' v'] [H H']]. exists v'. cbn [fst snd] in H. inversion H; subst; auto.
  - intros [v' [H ->]]. exists (k, v'). auto.
Qed.
Lemma map_sorted (h : F -> F) (l : lcT p) : lsorted l -> lsorted (map (fun kv => (fst kv, h (snd kv))) l).
Proof.
  induction l as [|[k v] l IH]; cbn [map]; auto.
  rewrite !lsorted_cons. intros [H1 H2]. split; auto. cbn [fst] in *.
  intros k' v' Hin. apply map_in in Hin as [? [Hin _]]. eauto.
Qed.

(** Coefficients read off by evaluation at unit vectors. *)
Definition unitv (i j : Index) : F := if ieqb j i then 1 else 0.
Lemma leval_unit l i : leval (unitv i) l = coef l i.
Proof.
  induction l as [|[k v] l IH]; [reflexivity|]. rewrite leval_cons, coef_cons, IH.
  unfold unitv. destruct ieqb; ring.
Qed.

Lemma coef_nonzero_in l i : coef l i <> 0 -> exists v, In (i, v) l.
Proof.
  induction l as [|[k v] l IH]; rewrite ?coef_nil, ?coef_cons; [congruence|].
  destruct (ieqb k i) eqn:E.
  - intros _. apply ieqb_eq in E; subst. exists v. now left.
  - intros H. destruct (IH H) as [v' ?]. exists v'. now right.
Qed.

Lemma coef_in_sorted l i v : lsorted l -> In (i, v) l -> coef l i = v.
Proof.
  induction l as [|[k v'] l IH]; intros Hs Hin; [destruct Hin|].
  rewrite coef_cons. destruct Hin as [E|Hin].
  - inversion E; subst. rewrite ieqb_refl.
    rewrite (coef_sorted_lt i v l i Hs) by (left; apply ieqb_refl). ring.
  - pose proof Hs as Hs0. apply lsorted_cons in Hs as [Hs1 Hs2]. cbn [fst] in Hs2.
    rewrite (ilt_eqb k i) by eauto. apply IH; auto.
Qed.

Lemma leval_ext s s' l : (forall k v, In (k, v) l -> s k = s' k) -> leval s l = leval s' l.
Proof.
  induction l as [|[k v] l IH]; intros H; [reflexivity|].
  rewrite !leval_cons. rewrite IH by (intros; eapply H; right; eauto).
  rewrite (H k v) by now left. reflexivity.
Qed.
End LC.
Arguments ceval {p} s c : simpl never.
Arguments leval {p} s l : simpl never.
Arguments coef {p} l i : simpl never.
