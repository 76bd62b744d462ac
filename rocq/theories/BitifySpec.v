(** Specifications of the bit gadgets (circuit/bitify.rs, circuit/mux.rs). *)

From Verif Require Export Bitify BitsTheory NumSpec.

Section BitifySpec.
Context {p : positive} (Hp : prime (Zpos p)).
Notation F := (Num p).
Add Field bs_field : (num_field Hp) (morphism (@num_morph p), constants [num_cst], power_tac (@num_power p) [num_pow_cst]).
Open Scope num_scope.
Implicit Types (s : Index -> F) (c x a : CNum p) (bits vs : list (CNum p)) (bs : list bool).

(** The signals [bits] carry the bits [bs]. *)
Definition ebits s bits bs : Prop := Forall2 (fun c (b : bool) => ceval s c = nbool b) bits bs.

Lemma num2 : (num 2 : F) = 1 + 1.
Proof. change (num (1 + 1) = (num 1 : F) + num 1). now rewrite num_add. Qed.

Fixpoint wsum (k : F) (l : list F) : F :=
  match l with [] => 0 | v :: l' => v * k + wsum (ndouble k) l' end.

Lemma wsum_ebits s bits bs k : ebits s bits bs -> wsum k (map (ceval s) bits) = k * num (bval bs).
Proof.
  intros H. revert k. induction H as [|c b bits bs E H IH]; intros k; cbn [map wsum bval].
  - change (num 0) with (0 : F). ring.
  - rewrite IH, E, num_add, num_mul.
    rewrite num2. unfold ndouble. destruct b; cbn [nbool Z.b2z];
      [change (num 1) with (1 : F)|change (num 0) with (0 : F)]; ring.
Qed.

Lemma ebits_length s bits bs : ebits s bits bs -> length bits = length bs.
Proof. induction 1; cbn; congruence. Qed.

Lemma ebits_exists s bits : Forall (fun c => isbit (ceval s c)) bits -> exists bs, ebits s bits bs.
Proof.
  induction 1 as [|c bits [E|E] H [bs IH]].
  - exists []. constructor.
  - exists (false :: bs). constructor; auto.
  - exists (true :: bs). constructor; auto.
Qed.

Lemma Forall_good_incl md s S0 S1 l : Forall (good md s S0) l -> incl (su S0) (su S1) -> Forall (good md s S1) l.
Proof. intros H Hi. eapply Forall_impl; [|exact H]. intros c Hc. eapply good_incl; eauto. Qed.

(** [vs] are the pairwise distinct variables [ids], all fresh. *)
Definition fresh_vars (S0 S1 : st) vs (ids : list Index) : Prop :=
  Forall2 (fun c i => clc c = [(i, n1)]) vs ids /\ NoDup ids /\
  (forall i, In i ids -> ~ In i (su S0) /\ In i (su S1)).

Lemma isbit_ebit (v : F) : isbit v -> exists b : bool, v = nbool b.
Proof. intros [->| ->]; [now exists false|now exists true]. Qed.

Lemma wp_bits_loop md s : forall is vb k x S0,
  okS s S0 -> good md s S0 x ->
  (md = Honest -> forall i, In i is -> exists b, nth_error vb i = Some (Some b)) ->
  (md = Setup -> forall i, In i is -> nth_error vb i = Some None) ->
  wp md s S0 (bits_loop is vb k x) (fun S1 r =>
    let '(x', vs) := r in
    good md s S1 x' /\ Forall (good md s S1) vs /\ length vs = length is /\
    (exists ids, fresh_vars S0 S1 vs ids) /\
    (forall s', ceval s' x = ceval s' x' + wsum (ndouble k) (map (ceval s') vs)) /\
    (exists bs, length bs = length is /\ (md <> Setup -> ebits s vs bs) /\
       (md = Honest -> Forall2 (fun i b => nth_error vb i = Some (Some b)) is bs)) /\
    bump S0 S1 (length is) (length is)).
Proof.
  induction is as [|i is IH]; intros vb k x S0 HS Hx Hh Hsu.
  - cbn [bits_loop wp length map wsum]. split; [auto|]. split; [constructor|]. split; [reflexivity|].
    split; [|split; [|split]].
    + exists []. split; [constructor|]. split; [constructor|intros i []].
    + intros s'. ring.
    + exists []. split; [reflexivity|]. split; intros; constructor.
    + apply bump_refl.
  - cbn [bits_loop].
    apply wp_lift_bind.
    { destruct md; auto.
      - intros E. destruct (Hh eq_refl i) as [b Hb]; [now left|]. rewrite Hb in E. discriminate.
      - intros E. rewrite (Hsu eq_refl i) in E by now left. discriminate. }
    intros ob Eob. destruct (nth_error vb i) as [ob'|] eqn:En; [|discriminate].
    cbn in Eob. assert (ob' = ob) by congruence. subst ob'. clear Eob.
    unfold cballoc. apply wp_bind. apply wp_calloc; auto.
    { intros Hm. destruct (Hh Hm i) as [b Hb]; [now left|]. assert (ob = Some b) by congruence. subst. discriminate. }
    intros v Hv S1 c Hg Hhc Hev Hvar Hb1.
    assert (I1 : incl (su S0) (su S1)) by (intros j Hj; now right).
    assert (HS1 : okS s S1) by (eapply okS_incl; eauto).
    assert (Gc : good md s S1 c).
    { apply Hg. destruct md; [left; congruence|left; congruence|right].
      specialize (Hsu eq_refl i (or_introl eq_refl)). assert (ob = None) by congruence. now subst. }
    assert (Nc : nonconst c) by (eapply isvar_nonconst; [exact HS|exact Hvar]).
    eapply wp_use.
    { unfold cb_assert. apply (wp_assert_bit Hp); auto.
      - intros Hm. destruct (Hh Hm i) as [b Hb]; [now left|]. assert (ob = Some b) by congruence. subst ob.
        cbn in Hhc. rewrite Hev. specialize (Hhc Hm). assert (s v = nbool b) as -> by congruence. apply isbit_nbool.
      - intros _ w Hw. unfold nonconst in Nc. congruence. }
    intros S2 [] I2 [Hbit [Hb2 Hsu2]]. specialize (Hb2 Nc).
    assert (HS2 : okS s S2) by (eapply okS_incl; eauto).
    assert (Gx2 : good md s S2 x) by (eapply good_incl; [exact Hx|]; eapply incl_tran; eauto).
    assert (Gc2 : good md s S2 c) by (eapply good_incl; eauto).
    eapply wp_use.
    { apply (IH vb (ndouble k) (csub x (cmul_num c (ndouble k))) S2); auto.
      - apply good_sub; auto. apply good_mul_num; auto.
      - intros Hm j Hj. apply Hh; auto. now right.
      - intros Hm j Hj. apply Hsu; auto. now right. }
    intros S3 [x' vs] I3 [Gx' [Gvs [Hlen [[ids Hids] [Hid [[bs [Hbl [Heb Hhb]]] Hb3]]]]]].
    apply wp_ret. cbn [fst snd].
    split; [exact Gx'|]. split; [constructor; [eapply good_incl; eauto|exact Gvs]|].
    split; [cbn; lia|]. split; [|split; [|split]].
    + exists (v :: ids). destruct Hids as [F1 [F2 F3]]. split; [|split].
      * constructor; auto. 
      * constructor; auto. intros Hin. apply (F3 v Hin). rewrite Hsu2. now left.
      * intros j [<-|Hj]; [split; auto; apply I3, I2; now left|].
        destruct (F3 j Hj) as [A B]. split; auto.
    + intros s'. specialize (Hid s'). rewrite ceval_sub, ceval_mul_num in Hid. cbn [map wsum].
      replace (ceval s' x) with (ceval s' x - ceval s' c * ndouble k + ceval s' c * ndouble k) by ring.
      rewrite Hid. ring.
    + assert (Hb : exists b : bool, (md <> Setup -> ceval s c = nbool b) /\ (md = Honest -> ob = Some b)).
      { destruct md.
        - destruct (isbit_ebit (ceval s c)) as [b Hb]; [apply Hbit; congruence|]. exists b. split; auto; congruence.
        - destruct (Hh eq_refl i) as [b Hb]; [now left|]. assert (ob = Some b) by congruence. subst ob.
          exists b. split; auto. intros _. specialize (Hhc eq_refl). cbn in Hhc. rewrite Hev. congruence.
        - exists false. split; congruence. }
      destruct Hb as [b [Hb1' Hb2']]. exists (b :: bs). split; [cbn; lia|]. split.
      * intros Hm. constructor; [auto|apply Heb; auto].
      * intros Hm. constructor; [rewrite En; f_equal; auto|auto].
    + pose proof (bump_trans _ _ _ _ _ _ _ Hb1 (bump_trans _ _ _ _ _ _ _ Hb2 Hb3)) as X.
      exact X.
Qed.

(** Bits of a non-constant signal. *)
Definition bits_post (S0 S1 : st) x bits : Prop :=
  exists b0 vs ids, bits = b0 :: vs /\ fresh_vars S0 S1 vs ids /\
    (forall s', ceval s' x = ceval s' b0 + wsum (ndouble n1) (map (ceval s') vs)).

Lemma bits_post_coef S0 S1 x b0 vs ids :
  fresh_vars S0 S1 vs ids ->
  (forall s', ceval s' x = ceval s' b0 + wsum (ndouble n1) (map (ceval s') vs)) ->
  forall i, In i (su S0) -> ccoef b0 i = ccoef x i.
Proof.
  intros [F1 [F2 F3]] Hid i Hi. rewrite !ccoef_eval, (Hid (unitv i)).
  assert (Z : forall k, wsum k (map (ceval (unitv i)) vs) = 0).
  { clear -Hp F1 F3 Hi. revert F3. induction F1 as [|c j vs ids E F1 IH]; intros F3 k; [reflexivity|].
    cbn [map wsum]. rewrite IH by (intros; apply F3; now right).
    unfold ceval. rewrite E, leval_cons, leval_nil. unfold unitv.
    rewrite (proj2 (ieqb_neq j i)); [ring|]. intros ->. apply (F3 i); [now left|auto]. }
  rewrite Z. ring.
Qed.

Lemma wf_in_su S0 c i : wf S0 c -> ccoef c i <> 0 -> In i (su S0).
Proof.
  intros [_ H] Hc. destruct (coef_nonzero_in _ _ Hc) as [v Hv]. eauto.
Qed.

Lemma wp_into_bits_nc md s S0 x n :
  okS s S0 -> good md s S0 x -> nonconst x -> (1 <= n)%nat ->
  (md = Honest -> (nval (ceval s x) < 2 ^ Z.of_nat n)%Z /\ (n <= 64 * num_limbs p)%nat) ->
  (md = Setup -> (n <= num_bits p)%nat) ->
  wp md s S0 (c_into_bits_le x n) (fun S1 bits =>
    Forall (good md s S1) bits /\ length bits = n /\ Forall nonconst bits /\
    bits_post S0 S1 x bits /\
    (exists bs, length bs = n /\ (md <> Setup -> ebits s bits bs /\ ceval s x = num (bval bs)) /\
       (md = Honest -> bval bs = nval (ceval s x))) /\
    bump S0 S1 (n - 1) n).
Proof.
  intros HS Hx Nx Hn Hh Hsu. unfold c_into_bits_le. unfold nonconst in Nx. rewrite Nx.
  set (vb := match cvalue x with Some v => map Some (iterbit_le v) | None => repeat None (num_bits p) end).
  assert (Hvb : md = Honest -> forall i, (i < n)%nat -> nth_error vb i = Some (Some (Z.testbit (nval (ceval s x)) (Z.of_nat i)))).
  { intros -> i Hi. destruct Hx as [_ Hx]. cbn in Hx. unfold vb. rewrite Hx. rewrite nth_error_map.
    rewrite iterbit_le_bits, nth_error_bits_of by (specialize (Hh eq_refl); lia). reflexivity. }
  eapply wp_use.
  { apply (wp_bits_loop md s (seq 1 (n - 1)) vb n1 x S0); auto.
    - intros Hm i Hi%in_seq. eexists. apply Hvb; auto. lia.
    - intros -> i Hi%in_seq. unfold vb. rewrite (vok_setup_none s x (proj2 Hx) Nx).
      rewrite (nth_error_nth' _ None) by (rewrite repeat_length; specialize (Hsu eq_refl); lia).
      f_equal. apply nth_repeat. }
  intros S1 [b0 vs] I1 [Gb [Gvs [Hlen [[ids Hids] [Hid [[bs [Hbl [Heb Hhb]]] Hb1]]]]]].
  rewrite seq_length in *. cbn [fst snd].
  assert (HS1 : okS s S1) by (eapply okS_incl; eauto).
  assert (Nb : nonconst b0).
  { destruct (nonconst_coef x) as [i [Hi Hc]]; [apply Hx|exact Nx|].
    apply (coef_nonconst _ i); auto.
    rewrite (bits_post_coef S0 S1 x b0 vs ids); auto. eapply wf_in_su; [apply Hx|auto]. }
  assert (Hhon : md = Honest -> ebits s vs bs /\ bval (Z.testbit (nval (ceval s x)) 0 :: bs) = nval (ceval s x)).
  { intros Hm. split; [apply Heb; congruence|]. specialize (Hhb Hm).
    replace (Z.testbit (nval (ceval s x)) 0 :: bs) with (bits_of n (nval (ceval s x))).
    - rewrite bval_bits_of. apply Z.mod_small. split; [apply nval_range|apply (Hh Hm)].
    - unfold bits_of. replace n with (S (n - 1)) by lia. cbn [seq map]. f_equal.
      assert (Hr : forall i, In i (seq 1 (n - 1)) -> nth_error vb i = Some (Some (Z.testbit (nval (ceval s x)) (Z.of_nat i)))).
      { intros i Hi%in_seq. apply Hvb; auto; lia. }
      clear -Hhb Hr. induction Hhb as [|i b is bs H Hhb IH]; [reflexivity|]. cbn [map]. f_equal.
      + rewrite Hr in H by now left. congruence.
      + apply IH. intros; apply Hr; now right. }
  assert (Hb0 : md = Honest -> ceval s b0 = nbool (Z.testbit (nval (ceval s x)) 0)).
  { intros Hm. destruct (Hhon Hm) as [E1 E2].
    pose proof (Hid s) as E3. rewrite (wsum_ebits _ _ _ _ E1) in E3.
    assert (E4 : ceval s x = nbool (Z.testbit (nval (ceval s x)) 0) + ndouble 1 * num (bval bs)).
    { rewrite <- (num_nval (ceval s x)) at 1. rewrite <- E2 at 1. cbn [bval]. rewrite num_add, num_mul.
      assert (E5 : (num 2 : F) = ndouble 1) by (unfold ndouble; apply num2).
      rewrite E5. f_equal. destruct Z.testbit; reflexivity. }
    rewrite E3 in E4 at 1.
    assert (forall u v w : F, u + w = v + w -> u = v) as C.
    { intros u v w E. replace u with (u + w - w) by ring. rewrite E. ring. }
    eapply C. exact E4. }
  eapply wp_use.
  { apply (wp_assert_bit Hp); auto.
    - intros Hm. rewrite (Hb0 Hm). apply isbit_nbool.
    - intros _ w Hw. unfold nonconst in Nb. congruence. }
  intros S2 [] I2 [Hbit [Hb2 Hsu2]]. specialize (Hb2 Nb).
  destruct n as [|n']; [lia|]. apply wp_ret. replace (S n' - 1)%nat with n' in * by lia.
  split; [constructor; [eapply good_incl; eauto|eapply Forall_good_incl; eauto]|].
  split; [cbn; lia|]. split; [|split; [|split]].
  - constructor; auto. destruct Hids as [F1 [_ F3]]. clear -F1 F3 HS.
    induction F1 as [|c i vs ids E F1 IH]; constructor.
    + unfold nonconst, as_const. rewrite E. destruct (ieqb i I0) eqn:Ei; auto.
      apply ieqb_eq in Ei. subst. exfalso. apply (F3 I0); [now left|apply HS].
    + apply IH. intros; apply F3; now right.
  - exists b0, vs, ids. split; auto. split; auto. destruct Hids as [F1 [F2 F3]].
    split; auto. split; auto. intros i Hi. rewrite Hsu2. auto.
  - destruct md.
    + destruct (isbit_ebit (ceval s b0)) as [b Hb]; [apply Hbit; congruence|].
      exists (b :: bs). split; [cbn; lia|]. split; [|congruence].
      intros _. split; [constructor; [exact Hb|apply Heb; congruence]|].
      rewrite (Hid s), (wsum_ebits s vs bs) by (apply Heb; congruence). rewrite Hb.
      cbn [bval]. rewrite num_add, num_mul.
      assert (E5 : (num 2 : F) = ndouble 1) by (unfold ndouble; apply num2).
      rewrite E5. f_equal. destruct b; reflexivity.
    + destruct (Hhon eq_refl) as [E1 E2]. specialize (Hb0 eq_refl).
      eexists. split; [|split; [|intros _; exact E2]]; [cbn; lia|]. intros _.
      split; [constructor; auto|]. rewrite E2. symmetry. apply num_nval.
    + exists (false :: bs). split; [cbn; lia|]. split; congruence.
  - destruct Hb1, Hb2. split; lia.
Qed.

(** Bits of a constant. *)
Lemma const_bits_loop_ok n : forall i (vb : list bool) (k r : F),
  (i + n <= length vb)%nat ->
  const_bits_loop (seq i n) vb k r =
  Ok (r - k * num (bval (firstn n (skipn i vb))), map cbconst (firstn n (skipn i vb))).
Proof.
  induction n as [|n IH]; intros i vb k r H.
  - cbn. change (num 0) with (0 : F).
    match goal with |- Ok (?a, _) = Ok (?c, _) => replace c with a by ring end. reflexivity.
  - cbn [seq const_bits_loop].
    destruct (nth_error vb i) as [b|] eqn:E; [|apply nth_error_None in E; lia].
    cbn [unwrap rbind]. rewrite IH by lia. cbn [rbind fst snd].
    assert (Esk : skipn i vb = b :: skipn (S i) vb).
    { clear -E. revert vb E. induction i as [|i IH]; intros [|y vb] E; cbn in *; try discriminate.
      - congruence.
      - apply IH in E. exact E. }
    rewrite Esk. cbn [firstn bval map]. rewrite num_add, num_mul.
    rewrite num2. unfold ndouble.
    match goal with |- Ok (?a, _) = Ok (?c, _) => replace c with a; [reflexivity|] end.
    destruct b; cbn [Z.b2z]; [change (num 1) with (1 : F)|change (num 0) with (0 : F)]; ring.
Qed.

Lemma firstn_bits_of n m z : (n <= m)%nat -> firstn n (bits_of m z) = bits_of n z.
Proof.
  intros H. unfold bits_of. rewrite firstn_map. f_equal. revert m H. 
  assert (G : forall n m i, (n <= m)%nat -> firstn n (seq i m) = seq i n).
  { clear. induction n as [|n IH]; intros m i H; auto. destruct m as [|m]; [lia|]. cbn. f_equal. apply IH. lia. }
  intros. apply G; auto.
Qed.

Lemma const_bits_loop_panic n : forall i (vb : list bool) (k r : F),
  (length vb < i + n)%nat -> (i <= length vb)%nat -> const_bits_loop (seq i n) vb k r = Panic.
Proof.
  induction n as [|n IH]; intros i vb k r H H2; [lia|]. cbn [seq const_bits_loop].
  destruct (nth_error vb i) as [b|] eqn:E; cbn [unwrap rbind]; [|reflexivity].
  assert (i < length vb)%nat by (apply nth_error_Some; congruence).
  rewrite IH by lia. reflexivity.
Qed.

Lemma into_bits_const x v n : as_const x = Some v ->
  c_into_bits_le x n =
  if Nat.leb n (64 * num_limbs p) && (nval v <? 2 ^ Z.of_nat n)%Z then Ret (map cbconst (bits_of n (nval v))) else PPanic.
Proof.
  intros E. unfold c_into_bits_le. rewrite E.
  destruct (Nat.leb_spec n (64 * num_limbs p)) as [Hn|Hn]; cbn [andb].
  - rewrite const_bits_loop_ok; [|rewrite iterbit_le_bits, bits_of_length; lia].
    cbn [plift pbind fst snd skipn]. rewrite iterbit_le_bits, firstn_bits_of by auto.
    destruct (nis_zero (v - 1 * num (bval (bits_of n (nval v))))) eqn:Z.
    + apply nis_zero_eq in Z. assert (E2 : v = num (bval (bits_of n (nval v)))).
      { replace v with (v - 1 * num (bval (bits_of n (nval v))) + num (bval (bits_of n (nval v)))) at 1 by ring.
        rewrite Z. ring. }
      rewrite bval_bits_of in E2.
      assert (Hlt : (nval v < 2 ^ Z.of_nat n)%Z).
      { assert (Hpos : (0 < 2 ^ Z.of_nat n)%Z) by (apply Z.pow_pos_nonneg; lia).
        pose proof (nval_range v) as R. pose proof (Z.mod_pos_bound (nval v) (2 ^ Z.of_nat n) Hpos) as R2.
        pose proof (Z.mod_le (nval v) (2 ^ Z.of_nat n) ltac:(lia) Hpos) as R3.
        assert (E3 : nval v = (nval v mod 2 ^ Z.of_nat n)%Z).
        { rewrite E2 at 1. apply nval_num_small. lia. }
        lia. }
      rewrite (proj2 (Z.ltb_lt _ _) Hlt). reflexivity.
    + apply nis_zero_neq in Z. destruct (Z.ltb_spec (nval v) (2 ^ Z.of_nat n)); [|reflexivity].
      exfalso. apply Z. rewrite bval_bits_of, Z.mod_small by (split; [apply nval_range|auto]).
      rewrite num_nval. ring.
  - rewrite const_bits_loop_panic; [reflexivity| |lia]. rewrite iterbit_le_bits, bits_of_length. lia.
Qed.

Lemma ebits_const s bs : s I0 = 1 -> ebits s (map cbconst bs) bs.
Proof.
  intros H. induction bs as [|b bs IH]; constructor; auto. unfold cbconst. now apply ceval_const.
Qed.
Lemma good_cbconst md s S0 bs : okS s S0 -> Forall (good md s S0) (map cbconst bs).
Proof.
  intros H. induction bs as [|b bs IH]; constructor; auto. now apply good_const.
Qed.

(** c_into_bits_le (C15). *)
Lemma wp_into_bits md s S0 x n :
  okS s S0 -> good md s S0 x -> (1 <= n)%nat ->
  (md = Honest -> (nval (ceval s x) < 2 ^ Z.of_nat n)%Z /\ (n <= 64 * num_limbs p)%nat) ->
  (md = Setup -> (n <= num_bits p)%nat /\ forall v, as_const x = Some v -> (nval v < 2 ^ Z.of_nat n)%Z) ->
  wp md s S0 (c_into_bits_le x n) (fun S1 bits =>
    Forall (good md s S1) bits /\ length bits = n /\
    (nonconst x -> Forall nonconst bits /\ bits_post S0 S1 x bits /\ bump S0 S1 (n - 1) n) /\
    (forall v, as_const x = Some v -> bits = map cbconst (bits_of n (nval v)) /\ S1 = S0) /\
    (exists bs, length bs = n /\ (md <> Setup -> ebits s bits bs /\ ceval s x = num (bval bs)) /\
       (md = Honest -> bval bs = nval (ceval s x)))).
Proof.
  intros HS Hx Hn Hh Hsu. destruct (as_const x) as [v|] eqn:E.
  - assert (Ev : ceval s x = v) by (apply as_const_eval; auto; apply HS).
    rewrite (into_bits_const x v n E).
    destruct (Nat.leb_spec n (64 * num_limbs p)) as [Hn2|Hn2]; cbn [andb].
    + destruct (Z.ltb_spec (nval v) (2 ^ Z.of_nat n)) as [Hlt|Hlt].
      * apply wp_ret. split; [now apply good_cbconst|].
        split; [now rewrite map_length, bits_of_length|].
        split; [unfold nonconst; congruence|].
        split; [intros w Ew; assert (w = v) by congruence; subst; auto|].
        assert (Eb : bval (bits_of n (nval v)) = nval v).
        { rewrite bval_bits_of. apply Z.mod_small. split; [apply nval_range|auto]. }
        exists (bits_of n (nval v)). split; [apply bits_of_length|]. split.
        -- intros _. split; [apply ebits_const, HS|]. rewrite Eb, num_nval. auto.
        -- intros _. now rewrite Ev.
      * cbn. destruct md; auto; exfalso.
        -- rewrite Ev in Hh. specialize (Hh eq_refl). lia.
        -- destruct (Hsu eq_refl) as [_ Hs2]. specialize (Hs2 v eq_refl). lia.
    + cbn. destruct md; auto; exfalso.
      * specialize (Hh eq_refl). lia.
      * specialize (Hsu eq_refl). pose proof (num_bits_limbs p). lia.
  - eapply wp_mono; [apply wp_into_bits_nc; auto|].
    + intros Hm. apply Hsu; auto.
    + intros S1 bits _ [H1 [H2 [H3 [H4 [H5 H6]]]]]. split; auto. split; auto. split; auto. split; [congruence|auto].
Qed.

(** c_from_bits_le (C19). *)
Lemma from_bits_loop_ok md s S0 : forall bits k a,
  okS s S0 -> good md s S0 a -> Forall (good md s S0) bits ->
  good md s S0 (from_bits_loop bits k a) /\
  forall s', ceval s' (from_bits_loop bits k a) = ceval s' a + wsum (ndouble k) (map (ceval s') bits).
Proof.
  induction bits as [|b bits IH]; intros k a HS Ha Hb.
  - cbn. split; auto. intros; ring.
  - inversion Hb as [|? ? Hb1 Hb2]; subst. cbn [from_bits_loop]. cbv zeta.
    destruct (IH (ndouble k) (cadd a (cmul_num b (ndouble k)))) as [G E]; auto.
    { apply good_add; auto. apply good_mul_num; auto. }
    split; auto. intros s'. rewrite E, ceval_add, ceval_mul_num. cbn [map wsum]. ring.
Qed.

Lemma from_bits_ok md s S0 bits :
  okS s S0 -> Forall (good md s S0) bits -> bits <> [] ->
  exists r, c_from_bits_le bits = Ok r /\ good md s S0 r /\
    (forall s', ceval s' r = wsum n1 (map (ceval s') bits)) /\
    (forall bs, ebits s bits bs -> ceval s r = num (bval bs)).
Proof.
  intros HS Hb Hne. destruct bits as [|b bits]; [congruence|].
  inversion Hb as [|? ? Hb1 Hb2]; subst.
  destruct (from_bits_loop_ok md s S0 bits n1 b) as [G E]; auto.
  exists (from_bits_loop bits n1 b). split; [reflexivity|]. split; auto.
  assert (E' : forall s', ceval s' (from_bits_loop bits n1 b) = wsum n1 (map (ceval s') (b :: bits))).
  { intros s'. rewrite E. cbn [map wsum]. ring. }
  split; auto. intros bs Hbs. rewrite E', (wsum_ebits _ _ _ _ Hbs). ring.
Qed.

(** c_comp_constant (C17). *)
Fixpoint cmpacc (n : nat) (sig ct : list bool) : Z :=
  match n, sig, ct with
  | S n', sl :: su :: sig', cl :: cu :: ct' =>
      (Z.sgn ((Z.b2z sl + 2 * Z.b2z su) - (Z.b2z cl + 2 * Z.b2z cu)) + 2 * cmpacc n' sig' ct')%Z
  | _, _, _ => 0%Z
  end.

Lemma cmpacc_spec n : forall sig ct,
  length sig = (2 * n)%nat -> length ct = (2 * n)%nat ->
  (- (2 ^ Z.of_nat n - 1) <= cmpacc n sig ct <= 2 ^ Z.of_nat n - 1)%Z /\
  Z.sgn (cmpacc n sig ct) = Z.sgn (bval sig - bval ct).
Proof.
  induction n as [|n IH]; intros sig ct Hs Hc.
  - destruct sig, ct; cbn in *; try discriminate. lia.
  - destruct sig as [|sl [|su sig]]; cbn in Hs; try lia.
    destruct ct as [|cl [|cu ct]]; cbn in Hc; try lia.
    destruct (IH sig ct) as [R Sg]; [lia|lia|].
    cbn [cmpacc bval]. rewrite Nat2Z.inj_succ, Z.pow_succ_r by lia.
    set (t := (Z.b2z sl + 2 * Z.b2z su - (Z.b2z cl + 2 * Z.b2z cu))%Z).
    assert (Ht : (-3 <= t <= 3)%Z) by (unfold t; destruct sl, su, cl, cu; cbn; lia).
    pose proof (Z.sgn_spec t) as St.
    split; [lia|].
    replace (Z.b2z sl + 2 * (Z.b2z su + 2 * bval sig) - (Z.b2z cl + 2 * (Z.b2z cu + 2 * bval ct)))%Z
      with (t + 4 * (bval sig - bval ct))%Z by (unfold t; lia).
    set (d := (bval sig - bval ct)%Z) in *. set (a := cmpacc n sig ct) in *.
    pose proof (Z.sgn_spec a). pose proof (Z.sgn_spec d).
    pose proof (Z.sgn_spec (Z.sgn t + 2 * a)). pose proof (Z.sgn_spec (t + 4 * d)). lia.
Qed.

Lemma ebits_app s b1 b2 l1 l2 : ebits s b1 l1 -> ebits s b2 l2 -> ebits s (b1 ++ b2) (l1 ++ l2).
Proof. apply Forall2_app. Qed.

Lemma cmp_term (sl su cl cu : bool) (x y z : F) :
  x = nbool sl -> y = nbool su -> z = x * y ->
  (match cl, cu with
   | false, false => x + y - z
   | true, false => x + y * num 2 - z - 1
   | false, true => z + y - 1
   | true, true => z - 1
   end) = num (Z.sgn ((Z.b2z sl + 2 * Z.b2z su) - (Z.b2z cl + 2 * Z.b2z cu))).
Proof.
  intros -> -> ->. rewrite num2.
  assert (N1 : (num (-1) : F) = - (1)) by (change (-1)%Z with (- (1))%Z; now rewrite num_opp).
  destruct sl, su, cl, cu;
    match goal with |- _ = num ?z => let z' := eval cbv in z in change z with z' end;
    cbn [nbool]; rewrite ?N1; change (num 0) with (0 : F); change (num 1) with (1 : F); ring.
Qed.

(** A pair of bits is fully symbolic. *)
Lemma odd2 (k : F) : Z.odd (Zpos p) = true -> k <> 0 -> ndouble k <> 0.
Proof.
  intros Ho Hk E. unfold ndouble in E. assert (E2 : (num 2 : F) * k = 0) by (rewrite num2, <- E; ring).
  apply (nmul_integral Hp) in E2 as [E2|E2]; auto.
  assert (E3 : nval (num 2 : F) = 0%Z) by (rewrite E2; apply nval_zero).
  rewrite nval_num in E3. apply Z.mod_divide in E3; [|lia].
  assert (Z.pos p <= 2)%Z by (apply Z.divide_pos_le; auto; lia).
  pose proof (prime_gt1 Hp). assert (EP : Z.pos p = 2%Z) by lia. rewrite EP in Ho. discriminate.
Qed.


Definition both_nc (a b : CNum p) : bool := match as_const a, as_const b with None, None => true | _, _ => false end.
Fixpoint npairs (n : nat) (sig : list (CNum p)) : nat :=
  match n, sig with
  | S n', a :: b :: sig' => ((if both_nc a b then 1 else 0) + npairs n' sig')%nat
  | _, _ => 0%nat
  end.

Lemma wp_cmul_full md s S0 a b :
  okS s S0 -> good md s S0 a -> good md s S0 b ->
  wp md s S0 (cmul a b) (fun S1 r =>
    post_eval md s S1 r (ceval s a * ceval s b) /\
    (both_nc a b = true -> isvar S0 S1 r /\ bump S0 S1 1 1) /\
    (both_nc a b = false -> S1 = S0 /\ exists c k, (c = a \/ c = b) /\ r = cmul_num c k)).
Proof.
  intros HS Ha Hb. unfold both_nc. destruct (as_const a) as [va|] eqn:Ea.
  - rewrite (cmul_const1 _ _ _ Ea). apply wp_ret. split; [split|].
    + apply good_mul_num; auto.
    + intros _. rewrite ceval_mul_num, (as_const_eval s a va) by (auto; apply HS). ring.
    + split; [congruence|]. intros _. split; auto. exists b, va. auto.
  - destruct (as_const b) as [vb|] eqn:Eb.
    + rewrite (cmul_const2 _ _ _ Ea Eb). apply wp_ret. split; [split|].
      * apply good_mul_num; auto.
      * intros _. rewrite ceval_mul_num, (as_const_eval s b vb) by (auto; apply HS). ring.
      * split; [congruence|]. intros _. split; auto. exists a, vb. auto.
    + eapply wp_mono; [apply (wp_cmul_nc Hp); auto|]. intros S1 r _ [H1 [H2 H3]].
      split; auto. split; auto. congruence.
Qed.

Definition cmp_t (cl cu : bool) a b c : CNum p :=
  match cl, cu with
  | false, false => csub (cadd_cap a b) c
  | true, false => csub_num (csub (cadd_rv a (cmul_num b (num 2))) c) n1
  | false, true => csub_num (cadd c b) n1
  | true, true => csub_num c n1
  end.

Lemma comp_loop_S n sig ct (k : F) a :
  comp_loop (S n) sig ct k a =
  match ct, sig with
  | cl :: cu :: ct', sl :: su :: sig' =>
      slu <-- cmul sl su ;;
      comp_loop n sig' ct' (ndouble k) (cadd_cap a (cmul_num (cmp_t cl cu sl su slu) k))
  | _, _ => PPanic
  end.
Proof. reflexivity. Qed.

Lemma good_cmp_t md s S0 cl cu a b c :
  okS s S0 -> good md s S0 a -> good md s S0 b -> good md s S0 c -> good md s S0 (cmp_t cl cu a b c).
Proof.
  intros. unfold cmp_t. destruct cl, cu;
    repeat first [apply good_sub_num; auto | apply good_sub; auto | apply good_add; auto
                 | apply good_add_cap; auto | apply good_add_rv; auto | apply good_mul_num; auto].
Qed.
Lemma ceval_cmp_t s cl cu a b c : s I0 = 1 -> ceval s (cmp_t cl cu a b c) =
   (match cl, cu with
   | false, false => ceval s a + ceval s b - ceval s c
   | true, false => ceval s a + ceval s b * num 2 - ceval s c - 1
   | false, true => ceval s c + ceval s b - 1
   | true, true => ceval s c - 1
   end).
Proof.
  intros H. unfold cmp_t. destruct cl, cu;
    rewrite ?ceval_sub_num, ?ceval_sub, ?ceval_add, ?ceval_add_rv, ?ceval_add_cap, ?ceval_mul_num by auto; reflexivity.
Qed.
Lemma ccoef_cmp_t j cl cu a b c : j <> I0 -> ccoef a j = 0 -> ccoef b j = 0 ->
  ccoef (cmp_t cl cu a b c) j = if cu then ccoef c j else - ccoef c j.
Proof.
  intros Hj Ha Hb. unfold cmp_t. destruct cl, cu;
    rewrite ?ccoef_sub_num, ?ccoef_sub, ?ccoef_add, ?ccoef_add_rv, ?ccoef_add_cap, ?ccoef_mul_num, ?Ha, ?Hb by auto; ring.
Qed.

Lemma wp_comp_loop (Ho : Z.odd (Zpos p) = true) md s : forall n sig ct k a S0,
  okS s S0 -> good md s S0 a -> Forall (good md s S0) sig ->
  (md <> Sound -> (2 * n <= length sig)%nat /\ (2 * n <= length ct)%nat) ->
  wp md s S0 (comp_loop n sig ct k a) (fun S1 r =>
    good md s S1 (snd r) /\ fst r = k * num (2 ^ Z.of_nat n) /\
    ((2 * n <= length sig)%nat /\ (2 * n <= length ct)%nat) /\
    (forall bs, ebits s sig bs -> md <> Setup -> ceval s (snd r) = ceval s a + k * num (cmpacc n bs ct)) /\
    (forall j, In j (su S0) -> j <> I0 -> (forall c, In c sig -> ccoef c j = 0) -> ccoef (snd r) j = ccoef a j) /\
    (k <> 0 -> (0 < npairs n sig)%nat -> nonconst (snd r)) /\
    bump S0 S1 (npairs n sig) (npairs n sig)).
Proof.
  induction n as [|n IH]; intros sig ct k a S0 HS Ha Hsig Hl.
  - cbn [comp_loop wp fst snd]. split; [auto|]. split; [|split; [|split; [|split; [|split]]]].
    + change (num (2 ^ Z.of_nat 0)) with (1 : F). ring.
    + lia.
    + intros bs _ _. cbn [cmpacc]. change (num 0) with (0 : F). ring.
    + auto.
    + cbn. lia.
    + apply bump_refl.
  - rewrite comp_loop_S.
    destruct ct as [|cl [|cu ct]]; [destruct md; cbn; auto; exfalso; cbn in Hl; destruct Hl; try congruence; lia| |].
    { destruct md; cbn; auto; exfalso; cbn in Hl; destruct Hl; try congruence; lia. }
    destruct sig as [|sl [|su sig]]; [destruct md; cbn; auto; exfalso; cbn in Hl; destruct Hl; try congruence; lia| |].
    { destruct md; cbn; auto; exfalso; cbn in Hl; destruct Hl; try congruence; lia. }
    inversion Hsig as [|? ? G1 Hsig']; subst. inversion Hsig' as [|? ? G2 G3]; subst. clear Hsig'.
    eapply wp_use; [apply wp_cmul_full; auto|].
    intros S1 slu I1 [[Gm Em] [Mnc Mc]].
    assert (HS1 : okS s S1) by (eapply okS_incl; eauto).
    eapply wp_mono.
    { apply IH; auto.
      - apply good_add_cap; auto; [eapply good_incl; eauto|]. apply good_mul_num; auto.
        apply good_cmp_t; auto; eapply good_incl; eauto.
      - eapply Forall_good_incl; eauto.
      - intros Hm. specialize (Hl Hm). cbn [length] in Hl. lia. }
    intros S2 [k' a'] I2 [Ga' [Ek [Hll [Hev [Hco [Hnc Hb]]]]]]. cbn [fst snd] in *.
    split; [exact Ga'|]. split; [|split; [|split; [|split; [|split]]]].
    + rewrite Ek, Nat2Z.inj_succ, Z.pow_succ_r, num_mul, num2 by lia. unfold ndouble. ring.
    + cbn [length]. lia.
    + intros bs Hbs Hm. inversion Hbs as [|? bl ? bs1 E1 Hbs1]; subst.
      inversion Hbs1 as [|? bu ? bs2 E2 Hbs2]; subst. rewrite (Hev bs2 Hbs2 Hm).
      rewrite ceval_add_cap, ceval_mul_num, ceval_cmp_t by apply HS.
      rewrite (cmp_term bl bu cl cu (ceval s sl) (ceval s su) (ceval s slu)) by auto.
      cbn [cmpacc]. rewrite num_add, num_mul, num2. unfold ndouble. ring.
    + intros j Hj Hj0 Hc. rewrite Hco; auto; [|intros c Hc'; apply Hc; cbn; auto].
      rewrite ccoef_add_cap, ccoef_mul_num, ccoef_cmp_t; auto; [|apply Hc; cbn; auto|apply Hc; cbn; auto].
      assert (Z : ccoef slu j = 0).
      { destruct (both_nc sl su) eqn:Eb.
        - destruct (Mnc eq_refl) as [V _]. destruct (isvar_coef Hp _ _ _ V) as [i [Hi1 [Hi2 Hi3]]].
          rewrite Hi3. rewrite (proj2 (ieqb_neq i j)); auto. intros ->. contradiction.
        - destruct (Mc eq_refl) as [_ [c [w [Hcw ->]]]]. rewrite ccoef_mul_num.
          rewrite (Hc c) by (destruct Hcw as [->| ->]; cbn; auto). ring. }
      rewrite Z. destruct cu; ring.
    + intros Hk Hn. cbn [npairs] in Hn. destruct (both_nc sl su) eqn:Eb.
      * destruct (Mnc eq_refl) as [V _]. destruct (isvar_coef Hp _ _ _ V) as [i [Hi1 [Hi2 Hi3]]].
        assert (i <> I0) by (intros ->; apply Hi1, HS).
        assert (Fr : forall c, wf S0 c -> ccoef c i = 0) by (intros c Hc; eapply wf_coef_fresh; eauto).
        apply (coef_nonconst _ i); auto. rewrite Hco; auto.
        -- rewrite ccoef_add_cap, ccoef_mul_num, ccoef_cmp_t; auto; [|apply Fr, G1|apply Fr, G2].
           rewrite (Fr a) by apply Ha. rewrite Hi3, ieqb_refl. intros E. apply Hk.
           destruct cu; [|replace k with (- (0 + - (1) * k)) by ring]; [replace k with (0 + 1 * k) by ring; auto|].
           rewrite E. ring.
        -- intros c Hc. apply Fr. rewrite Forall_forall in G3. apply G3; auto.
      * apply Hnc; [now apply odd2|]. lia.
    + cbn [npairs]. destruct (both_nc sl su) eqn:Eb.
      * destruct (Mnc eq_refl) as [_ B1]. exact (bump_trans _ _ _ _ _ _ _ B1 Hb).
      * destruct (Mc eq_refl) as [-> _]. exact Hb.
Qed.

(** Constant signals. *)
Lemma comp_loop_const n : forall bs ct (k : F) a v,
  as_const a = Some v -> (2 * n <= length bs)%nat -> (2 * n <= length ct)%nat ->
  exists a', comp_loop n (map cbconst bs) ct k a = Ret (k * num (2 ^ Z.of_nat n), a') /\
    as_const a' = Some (v + k * num (cmpacc n bs ct)).
Proof.
  induction n as [|n IH]; intros bs ct k a v Ea Hb Hc.
  - exists a. cbn [comp_loop cmpacc]. change (num (2 ^ Z.of_nat 0)) with (1 : F). change (num 0) with (0 : F).
    split; [|rewrite Ea; f_equal; ring]. f_equal. f_equal. ring.
  - destruct bs as [|sl [|su bs]]; cbn in Hb; try lia.
    destruct ct as [|cl [|cu ct]]; cbn in Hc; try lia.
    rewrite comp_loop_S. cbn [map].
    rewrite (cmul_const1 (cbconst sl) (cbconst su) (nbool sl)) by reflexivity. cbn [pbind].
    set (m := cmul_num (cbconst su) (nbool sl)).
    assert (Em : as_const m = Some (nbool su * nbool sl)) by (apply as_const_mul_num; reflexivity).
    set (t := cmp_t cl cu (cbconst sl) (cbconst su) m).
    assert (Et : as_const t = Some (num (Z.sgn ((Z.b2z sl + 2 * Z.b2z su) - (Z.b2z cl + 2 * Z.b2z cu))))).
    { rewrite <- (cmp_term sl su cl cu (nbool sl) (nbool su) (nbool su * nbool sl)) by (auto; ring).
      assert (A1 : as_const (@cbconst p sl) = Some (nbool sl)) by reflexivity.
      assert (A2 : as_const (@cbconst p su) = Some (nbool su)) by reflexivity.
      unfold t, cmp_t. destruct cl, cu.
      - now apply as_const_sub_num.
      - apply as_const_sub_num, as_const_sub; auto. unfold cadd_rv.
        replace (nbool sl + nbool su * num 2 : F) with (nbool su * num 2 + nbool sl : F) by ring.
        apply as_const_add; auto. now apply as_const_mul_num.
      - apply as_const_sub_num, as_const_add; auto.
      - apply as_const_sub; auto. now apply as_const_add_cap. }
    destruct (IH bs ct (ndouble k) (cadd_cap a (cmul_num t k))
       (v + num (Z.sgn ((Z.b2z sl + 2 * Z.b2z su) - (Z.b2z cl + 2 * Z.b2z cu))) * k)) as [a' [E1 E2]]; try lia.
    { apply as_const_add_cap; auto. now apply as_const_mul_num. }
    exists a'. rewrite E1, E2. split.
    + f_equal. f_equal. rewrite Nat2Z.inj_succ, Z.pow_succ_r, num_mul, num2 by lia. unfold ndouble. ring.
    + f_equal. cbn [cmpacc]. rewrite num_add, num_mul, num2. unfold ndouble. ring.
Qed.

Definition nsteps (len : nat) : nat := (Nat.div2 len + Nat.modulo len 2)%nat.
Lemma nsteps_pad len : (2 * nsteps len = len + Nat.modulo len 2)%nat.
Proof.
  unfold nsteps. rewrite Nat.div2_div. pose proof (Nat.div_mod len 2). lia.
Qed.

Lemma cmp_sum_bit n z : (- (2 ^ Z.of_nat n - 1) <= z <= 2 ^ Z.of_nat n - 1)%Z ->
  (0 <= z + 2 ^ Z.of_nat n - 1 < 2 ^ Z.of_nat (n + 1))%Z /\
  Z.testbit (z + 2 ^ Z.of_nat n - 1) (Z.of_nat n) = (0 <? z)%Z.
Proof.
  intros Hz. assert (0 < 2 ^ Z.of_nat n)%Z by (apply Z.pow_pos_nonneg; lia).
  assert (E : (2 ^ Z.of_nat (n + 1) = 2 * 2 ^ Z.of_nat n)%Z).
  { rewrite Nat2Z.inj_add, Z.pow_add_r by lia. lia. }
  split; [lia|]. rewrite Z.testbit_eqb by lia.
  destruct (Z.ltb_spec 0 z).
  - replace ((z + 2 ^ Z.of_nat n - 1) / 2 ^ Z.of_nat n)%Z with 1%Z; [reflexivity|].
    apply Z.div_unique with (z - 1)%Z; lia.
  - rewrite Z.div_small by lia. reflexivity.
Qed.

Lemma nth_error_ebits s bits bs n c : ebits s bits bs -> nth_error bits n = Some c ->
  exists b : bool, nth_error bs n = Some b /\ ceval s c = nbool b.
Proof.
  intros H. revert n. induction H as [|c' b bits bs E H IH]; intros [|n] Hn; cbn in *; try discriminate.
  - exists b. split; auto. congruence.
  - auto.
Qed.
Lemma nth_bits_of_bval bs n b : nth_error bs n = Some b -> Z.testbit (bval bs) (Z.of_nat n) = b.
Proof.
  intros H. assert (Hl : (n < length bs)%nat) by (apply nth_error_Some; congruence).
  pose proof (nth_error_bits_of (length bs) (bval bs) n Hl) as E. rewrite bits_of_bval, H in E. congruence.
Qed.

Lemma bval_pad bs m : bval (bs ++ repeat false m) = bval bs.
Proof.
  rewrite bval_app. replace (bval (repeat false m)) with 0%Z; [lia|].
  induction m as [|m IH]; auto. cbn [repeat bval]. rewrite <- IH. reflexivity.
Qed.

(** Result of the comparison: signal > ct, with ct cut to the compared width. *)
Definition cmp_result (bs : list bool) (ct : F) : bool :=
  (nval ct mod 2 ^ Z.of_nat (2 * nsteps (length bs)) <? bval bs)%Z.

Lemma cmpacc_firstn m : forall l l', (2 * m <= length l')%nat -> cmpacc m l l' = cmpacc m l (firstn (2 * m) l').
Proof.
  induction m as [|m IH]; intros l l' H; [reflexivity|].
  destruct l' as [|x [|y l']]; cbn in H; try lia.
  replace (2 * S m)%nat with (S (S (2 * m))) by lia. cbn [firstn cmpacc].
  destruct l as [|? [|? l]]; auto. rewrite IH by lia. reflexivity.
Qed.

Lemma cmp_result_acc bs (ct : F) :
  let n := nsteps (length bs) in
  let z := cmpacc n (bs ++ repeat false (length bs mod 2)) (iterbit_le ct) in
  (length bs <= 64 * num_limbs p)%nat ->
  (2 * n <= 64 * num_limbs p)%nat /\
  (- (2 ^ Z.of_nat n - 1) <= z <= 2 ^ Z.of_nat n - 1)%Z /\ (0 <? z)%Z = cmp_result bs ct.
Proof.
  intros n z H64'.
  assert (H64 : (2 * n <= 64 * num_limbs p)%nat).
  { unfold n. rewrite nsteps_pad.
    destruct (Nat.eq_dec (length bs) (64 * num_limbs p)) as [E|E].
    - rewrite E. replace (64 * num_limbs p)%nat with (2 * (32 * num_limbs p))%nat by lia.
      rewrite Nat.mul_comm, Nat.mod_mul by lia. lia.
    - pose proof (Nat.mod_upper_bound (length bs) 2). lia. }
  split; auto. subst z. rewrite cmpacc_firstn by (rewrite iterbit_le_bits, bits_of_length; lia).
  rewrite iterbit_le_bits, firstn_bits_of by lia.
  destruct (cmpacc_spec n (bs ++ repeat false (length bs mod 2)) (bits_of (2 * n) (nval ct))) as [R Sg].
  { rewrite app_length, repeat_length. unfold n. rewrite nsteps_pad. lia. }
  { apply bits_of_length. }
  split; auto. unfold cmp_result. fold n.
  rewrite bval_pad, bval_bits_of in Sg.
  set (z := cmpacc _ _ _) in *. pose proof (Z.sgn_spec z). pose proof (Z.sgn_spec (bval bs - nval ct mod 2 ^ Z.of_nat (2 * n))).
  destruct (Z.ltb_spec 0 z), (Z.ltb_spec (nval ct mod 2 ^ Z.of_nat (2 * n)) (bval bs)); auto; lia.
Qed.

Lemma pad_eq n : (if Nat.eqb (n mod 2) 1 then [cbconst false] else []) = map (@cbconst p) (repeat false (n mod 2)).
Proof.
  assert (M : (n mod 2 < 2)%nat) by (apply Nat.mod_upper_bound; lia).
  destruct (n mod 2)%nat as [|[|?]]; try lia; reflexivity.
Qed.

Lemma num_cmp_sum n (z : Z) : num z + (1 * num (2 ^ Z.of_nat n) - 1) = num (z + 2 ^ Z.of_nat n - 1) :> F.
Proof. rewrite num_sub, num_add. change (num 1) with (1 : F). ring. Qed.

Lemma nsteps_pos n : (0 < n)%nat -> (1 <= nsteps n)%nat.
Proof. intros H. pose proof (nsteps_pad n). lia. Qed.

Lemma comp_constant_const bs (ct : F) :
  (0 < length bs)%nat -> (length bs <= 64 * num_limbs p)%nat ->
  (2 ^ Z.of_nat (nsteps (length bs) + 1) <= Zpos p)%Z ->
  c_comp_constant (map cbconst bs) ct = Ret (cbconst (cmp_result bs ct)).
Proof.
  intros H0 H64 Hpw. unfold c_comp_constant. rewrite map_length.
  change ((Nat.div2 (length bs) + length bs mod 2)%nat) with (nsteps (length bs)).
  set (n := nsteps (length bs)) in *. rewrite (proj2 (Nat.ltb_lt _ _) H0). cbn [passert pbind].
  rewrite pad_eq, <- map_app.
  destruct (cmp_result_acc bs ct H64) as [W [R Sg]]. fold n in W, R, Sg.
  destruct (comp_loop_const n (bs ++ repeat false (length bs mod 2)) (iterbit_le ct) n1 czero n0) as [a' [E1 E2]].
  { reflexivity. }
  { rewrite app_length, repeat_length. unfold n. rewrite nsteps_pad. lia. }
  { rewrite iterbit_le_bits, bits_of_length. lia. }
  rewrite E1. cbn [pbind]. set (z := cmpacc _ _ _) in *.
  destruct (cmp_sum_bit n z R) as [R2 T].
  assert (Hv : nval (num (z + 2 ^ Z.of_nat n - 1) : F) = (z + 2 ^ Z.of_nat n - 1)%Z) by (apply nval_num_small; lia).
  assert (Ea : as_const (cadd_num a' (1 * num (2 ^ Z.of_nat n) - 1)) = Some (num (z + 2 ^ Z.of_nat n - 1))).
  { rewrite <- num_cmp_sum. replace (num z) with (0 + 1 * num z : F) by ring. now apply as_const_add_num. }
  rewrite (into_bits_const _ _ _ Ea), Hv.
  assert (Hle : (n + 1 <= 64 * num_limbs p)%nat) by (pose proof (nsteps_pos _ H0); fold n in H; lia).
  rewrite (proj2 (Nat.leb_le _ _) Hle), (proj2 (Z.ltb_lt _ _)) by lia. cbn [andb pbind].
  rewrite nth_error_map, nth_error_bits_of by lia. cbn. now rewrite T, Sg.
Qed.

Lemma wp_comp_constant md s S0 sig ct :
  okS s S0 -> Forall (good md s S0) sig ->
  Z.odd (Zpos p) = true ->
  (2 ^ Z.of_nat (nsteps (length sig) + 1) <= Zpos p)%Z ->
  (md <> Sound -> (0 < length sig)%nat /\ (length sig <= 64 * num_limbs p)%nat) ->
  (md = Honest -> exists bs, ebits s sig bs) ->
  (md = Setup -> (0 < npairs (nsteps (length sig)) sig)%nat) ->
  wp md s S0 (c_comp_constant sig ct) (fun S1 r =>
    good md s S1 r /\
    (forall bs, ebits s sig bs -> md <> Setup -> ceval s r = nbool (cmp_result bs ct)) /\
    ((0 < npairs (nsteps (length sig)) sig)%nat ->
       nonconst r /\ bump S0 S1 (npairs (nsteps (length sig)) sig + nsteps (length sig))
                      (npairs (nsteps (length sig)) sig + nsteps (length sig) + 1))).
Proof.
  intros HS Hsig Ho Hpw Hl Hh Hsu. unfold c_comp_constant. cbv zeta. unfold CBool in *.
  set (n := nsteps (length sig)) in *.
  change ((Nat.div2 (length sig) + length sig mod 2)%nat) with n.
  rewrite pad_eq. set (pad := map (@cbconst p) (repeat false (length sig mod 2))).
  assert (Lpad : (length (sig ++ pad) = 2 * n)%nat).
  { unfold pad. rewrite app_length, map_length, repeat_length. unfold n. rewrite nsteps_pad. lia. }
  destruct (Nat.ltb_spec 0 (length sig)) as [Hpos|Hpos]; cycle 1.
  { cbn [passert pbind wp]. destruct md; auto; exfalso; destruct (Hl ltac:(discriminate)) as [Hl1 _]; lia. }
  cbn [passert pbind]. pose proof (nsteps_pos _ Hpos) as Hn1. fold n in Hn1.
  assert (Hnb : (n + 1 <= num_bits p)%nat).
  { pose proof (num_bits_upper p). destruct (Nat.le_gt_cases (n + 1) (num_bits p)) as [|G]; auto.
    assert (2 ^ Z.of_nat (num_bits p) <= 2 ^ Z.of_nat (n + 1))%Z by (apply Z.pow_le_mono_r; lia). lia. }
  pose proof (num_bits_limbs p) as Hnl.
  eapply wp_use.
  { apply (wp_comp_loop Ho md s n (sig ++ pad) (iterbit_le ct) n1 czero S0); auto.
    - apply good_const; auto.
    - apply Forall_app. split; auto. now apply good_cbconst.
    - intros Hm. rewrite Lpad, iterbit_le_bits, bits_of_length. split; [lia|].
      destruct (Hl Hm) as [_ Hl2]. unfold n. rewrite nsteps_pad.
      destruct (Nat.eq_dec (length sig) (64 * num_limbs p)) as [E|E].
      + rewrite E. replace (64 * num_limbs p)%nat with (2 * (32 * num_limbs p))%nat by lia.
        rewrite Nat.mul_comm, Nat.mod_mul by lia. lia.
      + pose proof (Nat.mod_upper_bound (length sig) 2). lia. }
  intros S1 [k a] I1 [Ga [Ek [[_ Hw] [Hev [_ [Hnc Hb1]]]]]]. cbn [fst snd] in *.
  rewrite iterbit_le_bits, bits_of_length in Hw.
  assert (H64 : (length sig <= 64 * num_limbs p)%nat) by (pose proof (nsteps_pad (length sig)); fold n in H; lia).
  assert (Epairs : npairs n (sig ++ pad) = npairs n sig).
  { assert (G : forall m l l', (length l' <= 1)%nat -> Forall (fun c => as_const c <> None) l' -> npairs m (l ++ l') = npairs m l).
    { clear. induction m as [|m IH]; intros l l' H1 H2; [reflexivity|].
      destruct l as [|x [|y l]].
      - destruct l' as [|x [|y l']]; cbn in *; auto; lia.
      - destruct l' as [|x' [|y l']]; cbn in *; auto; [|lia]. inversion H2; subst. unfold both_nc.
        destruct (as_const x); [destruct m; reflexivity|]. destruct (as_const x'); [destruct m; reflexivity|congruence].
      - cbn [app npairs]. now rewrite IH. }
    apply G.
    - unfold pad. rewrite map_length, repeat_length. pose proof (Nat.mod_upper_bound (length sig) 2). lia.
    - unfold pad. apply Forall_forall. intros c Hc. apply in_map_iff in Hc as [b [<- _]]. cbn. congruence. }
  rewrite Epairs in *.
  assert (HS1 : okS s S1) by (eapply okS_incl; eauto).
  assert (Hval : forall bs, ebits s sig bs -> md <> Setup ->
    exists z, (- (2 ^ Z.of_nat n - 1) <= z <= 2 ^ Z.of_nat n - 1)%Z /\ (0 <? z)%Z = cmp_result bs ct /\
      ceval s (cadd_num a (k - 1)) = num (z + 2 ^ Z.of_nat n - 1)).
  { intros bs Hbs Hm. assert (Lb : length sig = length bs) by (eapply ebits_length; eauto).
    rewrite Lb in H64. destruct (cmp_result_acc bs ct H64) as [_ [R Sg]].
    rewrite <- Lb in R, Sg. fold n in R, Sg. eexists. split; [exact R|]. split; [exact Sg|].
    rewrite ceval_add_num by apply HS.
    rewrite (Hev (bs ++ repeat false (length sig mod 2))); auto.
    - rewrite Ek, ceval_zero. rewrite <- num_cmp_sum. ring.
    - apply ebits_app; auto. apply ebits_const, HS. }
  eapply wp_use.
  { apply (wp_into_bits md s S1 (cadd_num a (k - 1)) (n + 1)); auto.
    - apply good_add_num; auto.
    - lia.
    - intros Hm. destruct (Hh Hm) as [bs Hbs]. destruct (Hval bs Hbs) as [z [R [_ E]]]; [congruence|].
      rewrite E. destruct (cmp_sum_bit n z R) as [R2 _]. rewrite nval_num_small by lia. lia.
    - intros Hm. split; auto. intros v Hv. exfalso.
      assert (N : nonconst a) by (apply Hnc; [apply (n1_neq_n0 Hp)|apply Hsu; auto]).
      destruct (nonconst_coef a) as [i [Hi Hc]]; [apply Ga|exact N|].
      assert (N2 : nonconst (cadd_num a (k - 1))) by (apply (coef_nonconst _ i); auto; now rewrite ccoef_add_num).
      unfold nonconst in N2. congruence. }
  intros S2 bits I2 [Gb [Lb [Hncb [_ [bs2 [Lb2 [Heb2 Hhb2]]]]]]].
  destruct (nth_error bits n) as [r|] eqn:Er; [|apply nth_error_None in Er; lia].
  cbn [unwrap plift wp].
  split; [|split].
  - rewrite Forall_forall in Gb. apply Gb. eapply nth_error_In; eauto.
  - intros bs Hbs Hm. destruct (Hval bs Hbs Hm) as [z [R [Sg E]]]. destruct (Heb2 Hm) as [Heb Ev].
    destruct (nth_error_ebits _ _ _ _ _ Heb Er) as [b [Eb ->]]. f_equal. rewrite <- Sg.
    destruct (cmp_sum_bit n z R) as [R2 T]. rewrite <- T. rewrite <- (nth_bits_of_bval _ _ _ Eb). f_equal.
    rewrite E in Ev. apply (f_equal nval) in Ev. pose proof (bval_range bs2) as R3. rewrite Lb2 in R3.
    rewrite !nval_num_small in Ev by lia. auto.
  - intros Hnp. assert (N : nonconst a) by (apply Hnc; [apply (n1_neq_n0 Hp)|auto]).
    destruct (nonconst_coef a) as [i [Hi Hc]]; [apply Ga|exact N|].
    assert (N2 : nonconst (cadd_num a (k - 1))) by (apply (coef_nonconst _ i); auto; now rewrite ccoef_add_num).
    destruct (Hncb N2) as [Nb [_ B2]]. split.
    + rewrite Forall_forall in Nb. apply Nb. eapply nth_error_In; eauto.
    + destruct Hb1, B2. split; lia.
Qed.

Lemma npairs_nc : forall n sig, Forall nonconst sig -> (2 * n <= length sig + 1)%nat ->
  npairs n sig = Nat.min n (Nat.div2 (length sig)).
Proof.
  induction n as [|n IH]; intros sig H Hl; [reflexivity|].
  destruct sig as [|a [|b sig]]; cbn [npairs length Nat.div2]; [lia|lia|].
  inversion H as [|? ? Ha H']; subst. inversion H' as [|? ? Hb H2]; subst.
  unfold both_nc. unfold nonconst in Ha, Hb. rewrite Ha, Hb, IH by (auto; cbn in Hl; lia). lia.
Qed.

(** c_into_bits_le_strict (C16). *)
Lemma prime_odd : (2 < Zpos p)%Z -> Z.odd (Zpos p) = true.
Proof.
  intros H. destruct (Z.odd (Z.pos p)) eqn:E; auto. exfalso.
  assert (Ev : Z.even (Z.pos p) = true) by (rewrite <- Z.negb_odd, E; reflexivity).
  apply Z.even_spec in Ev as [k Hk].
  apply (prime_divisors _ Hp 2%Z) in Hk as Hd || idtac.
  assert (D : (2 | Z.pos p)%Z) by (exists k; lia).
  apply (prime_divisors _ Hp) in D. lia.
Qed.

Definition strict_cons (N : nat) : nat := (N + (N / 2 + nsteps N + 1) + 1)%nat.

Lemma strict_width : (4 <= num_bits p)%nat -> (2 ^ Z.of_nat (nsteps (num_bits p) + 1) <= Zpos p)%Z.
Proof.
  intros H. etransitivity; [|apply num_bits_lower]. apply Z.pow_le_mono_r; [lia|].
  pose proof (nsteps_pad (num_bits p)). pose proof (Nat.mod_upper_bound (num_bits p) 2). lia.
Qed.

Lemma cmp_result_m1 bs : length bs = num_bits p ->
  cmp_result bs (- (1) : F) = (Zpos p <=? bval bs)%Z.
Proof.
  intros Hl. unfold cmp_result. rewrite Hl.
  assert (E : nval (- (1) : F) = (Zpos p - 1)%Z).
  { change (- (1) : F) with (nneg (num 1) : F). rewrite <- num_opp, nval_num.
    pose proof (prime_gt1 Hp). replace (- (1))%Z with (Z.pos p - 1 + (-1) * Z.pos p)%Z by lia.
    rewrite Z.mod_add by lia. apply Z.mod_small. lia. }
  rewrite E, Z.mod_small.
  - destruct (Z.ltb_spec (Z.pos p - 1) (bval bs)), (Z.leb_spec (Z.pos p) (bval bs)); auto; lia.
  - split; [lia|]. apply Z.lt_le_trans with (2 ^ Z.of_nat (num_bits p))%Z; [pose proof (num_bits_upper p); lia|].
    apply Z.pow_le_mono_r; [lia|]. pose proof (nsteps_pad (num_bits p)). lia.
Qed.

Lemma assert_false_const : cb_assert_false (@cbconst p false) = Ret tt.
Proof.
  unfold cb_assert_false, cb_assert_const, cassert_const, cbconst. rewrite as_const_cconst.
  now rewrite neqb_refl.
Qed.

Lemma wp_into_bits_strict md s S0 x :
  okS s S0 -> good md s S0 x -> (4 <= num_bits p)%nat ->
  wp md s S0 (c_into_bits_le_strict x) (fun S1 bits =>
    Forall (good md s S1) bits /\ length bits = num_bits p /\
    (md <> Setup -> ebits s bits (bits_of (num_bits p) (nval (ceval s x)))) /\
    (nonconst x -> Forall nonconst bits /\ bits_post S0 S1 x bits /\
       bump S0 S1 (num_bits p - 1 + (Nat.div2 (num_bits p) + nsteps (num_bits p)))
                  (num_bits p + (Nat.div2 (num_bits p) + nsteps (num_bits p) + 1) + 1)) /\
    (forall v, as_const x = Some v -> bits = map cbconst (bits_of (num_bits p) (nval v)) /\ S1 = S0)).
Proof.
  intros HS Hx H4. set (N := num_bits p) in *.
  assert (Hpb : (8 <= Zpos p)%Z).
  { pose proof (num_bits_lower p). assert (2 ^ 3 <= 2 ^ (Z.of_nat (num_bits p) - 1))%Z by (apply Z.pow_le_mono_r; unfold N in *; lia).
    change (2 ^ 3)%Z with 8%Z in H0. lia. }
  assert (Ho : Z.odd (Zpos p) = true) by (apply prime_odd; lia).
  pose proof (num_bits_limbs p) as Hnl. fold N in Hnl.
  pose proof (strict_width H4) as Hw. fold N in Hw.
  assert (Hlt : forall v : F, (nval v < 2 ^ Z.of_nat N)%Z).
  { intros v. pose proof (nval_range v). pose proof (num_bits_upper p). fold N in H0. lia. }
  unfold c_into_bits_le_strict. fold N.
  destruct (as_const x) as [v|] eqn:E.
  - (* constant *)
    rewrite (into_bits_const x v N E).
    rewrite (proj2 (Nat.leb_le _ _) Hnl), (proj2 (Z.ltb_lt _ _) (Hlt v)). cbn [andb pbind].
    rewrite comp_constant_const; rewrite ?bits_of_length; auto; try lia. cbn [pbind].
    assert (Eb : bval (bits_of N (nval v)) = nval v).
    { rewrite bval_bits_of. apply Z.mod_small. split; [apply nval_range|auto]. }
    rewrite cmp_result_m1 by apply bits_of_length. rewrite Eb.
    destruct (Z.leb_spec (Zpos p) (nval v)) as [G|G]; [pose proof (nval_range v); lia|].
    rewrite assert_false_const. cbn [pbind wp].
    split; [now apply good_cbconst|]. split; [now rewrite map_length, bits_of_length|].
    split; [|split].
    + intros _. rewrite (as_const_eval s x v) by (auto; apply HS). apply ebits_const, HS.
    + unfold nonconst. congruence.
    + intros w Hw2. assert (w = v) by congruence. subst. auto.
  - assert (Nx : nonconst x) by exact E.
    eapply wp_use.
    { apply (wp_into_bits_nc md s S0 x N); auto; lia. }
    intros S1 bits I1 [Gb [Lb [Nb [Pb [[bs [Lbs [Hebs Hbv]]] B1]]]]].
    assert (HS1 : okS s S1) by (eapply okS_incl; eauto).
    assert (Enp : npairs (nsteps N) bits = Nat.div2 N).
    { rewrite npairs_nc; auto.
      - rewrite Lb. pose proof (nsteps_pad N). unfold nsteps. lia.
      - rewrite Lb, nsteps_pad. pose proof (Nat.mod_upper_bound N 2). lia. }
    assert (D2 : (2 <= Nat.div2 N)%nat) by (rewrite Nat.div2_div; apply Nat.div_le_lower_bound; lia).
    eapply wp_use.
    { apply (wp_comp_constant md s S1 bits (nneg n1)); auto.
      - now rewrite Lb.
      - intros _. lia.
      - intros Hm. exists bs. apply Hebs. congruence.
      - intros _. rewrite Lb, Enp. lia. }
    intros S2 r I2 [Gr [Er Hnc]]. rewrite Lb, Enp in Hnc. destruct Hnc as [Nr B2]; [lia|].
    assert (HS2 : okS s S2) by (eapply okS_incl; eauto).
    eapply wp_use.
    { apply (wp_assert_const Hp md s S2 r (nbool false)); auto.
      intros Hm. rewrite (Er bs) by (try congruence; apply Hebs; congruence).
      rewrite cmp_result_m1 by auto. rewrite (Hbv Hm).
      destruct (Z.leb_spec (Zpos p) (nval (ceval s x))) as [G|G]; auto. pose proof (nval_range (ceval s x)); lia. }
    intros S3 [] I3 [Hf [B3 Hsu3]]. specialize (B3 Nr). apply wp_ret.
    assert (I13 : incl (su S1) (su S3)) by (eapply incl_tran; eauto).
    split; [eapply Forall_good_incl; eauto|]. split; auto. split; [|split].
    + intros Hm. destruct (Hebs Hm) as [Heb Ev]. specialize (Hf Hm). rewrite (Er bs Heb Hm) in Hf.
      rewrite cmp_result_m1 in Hf by auto.
      destruct (Z.leb_spec (Zpos p) (bval bs)) as [G|G].
      * exfalso. apply (n1_neq_n0 Hp). exact Hf.
      * assert (Ex : nval (ceval s x) = bval bs).
        { rewrite Ev. apply nval_num_small. pose proof (bval_range bs). lia. }
        rewrite Ex, <- Lbs, bits_of_bval. exact Heb.
    + intros _. split; auto. split.
      * destruct Pb as [b0 [vs [ids [P1 [[F1 [F2 F3]] P3]]]]]. exists b0, vs, ids. split; auto. split; auto.
        split; auto. split; auto. intros i Hi. destruct (F3 i Hi). split; auto.
      * destruct B1, B2, B3. split; lia.
    + congruence.
Qed.

(** c_mux3 (C20). *)
Definition mux_sel (bs : list bool) (col : list F) : F := nth (Z.to_nat (bval bs)) col 0.

Lemma wp_mux3_col md s S0 (s0 s1 s2 s10 : CNum p) (col : list F) :
  okS s S0 -> good md s S0 s0 -> good md s S0 s1 -> good md s S0 s2 -> good md s S0 s10 ->
  wp md s S0 (mux3_col s0 s1 s2 s10 col) (fun S1 r =>
    good md s S1 r /\
    (forall b0 b1 b2 : bool, ceval s s0 = nbool b0 -> ceval s s1 = nbool b1 -> ceval s s2 = nbool b2 ->
       ceval s s10 = ceval s s0 * ceval s s1 -> md <> Setup -> length col = 8%nat ->
       ceval s r = mux_sel [b0; b1; b2] col)).
Proof.
  intros HS G0 G1 G2 G10. unfold mux3_col.
  eapply wp_use.
  { apply (wp_cmul Hp); auto. repeat first [apply good_add_num; auto | apply good_add_cap; auto | apply good_mul_num; auto]. }
  intros S1 t I1 [Gt Et]. assert (HS1 : okS s S1) by (eapply okS_incl; eauto).
  assert (forall c, good md s S0 c -> good md s S1 c) as L by (intros; eapply good_incl; eauto).
  apply wp_ret. split.
  - repeat first [apply good_add_num; auto | apply good_add_cap; auto | apply good_mul_num; auto].
  - intros b0 b1 b2 E0 E1 E2 E10 Hm Hl.
    rewrite ceval_add_num, !ceval_add_cap, (Et Hm), ceval_add_num, !ceval_add_cap, !ceval_mul_num by apply HS.
    rewrite E10, E0, E1, E2.
    do 9 (destruct col as [|? col]; cbn [length] in Hl; try discriminate Hl).
    unfold mux_sel. destruct b0, b1, b2; cbn [nbool];
      match goal with |- _ = nth ?k _ _ => let k' := eval cbv in k in change k with k' end; cbn [nth]; ring.
Qed.

Lemma wp_pmapM {A B} md s (f : A -> prog p B) (P : st -> A -> B -> Prop) (l : list A) :
  (forall S0 S1 (a : A) (b : B), incl (su S0) (su S1) -> P S0 a b -> P S1 a b) ->
  forall S0, (forall S1 (a : A), In a l -> incl (su S0) (su S1) -> wp md s S1 (f a) (fun S2 b => P S2 a b)) ->
  wp md s S0 (pmapM f l) (fun S1 (r : list B) => Forall2 (P S1) l r).
Proof.
  intros Hmono. induction l as [|x l IH]; intros S0 H; [cbn; constructor|].
  cbn [pmapM]. eapply wp_use; [apply H; [now left|apply incl_refl]|].
  intros S1 b I1 Pb. cbv beta in Pb. eapply wp_use.
  - apply IH. intros S2 a' Ha' I2. apply H; [now right|eapply incl_tran; eauto].
  - intros S2 bs I2 Pbs. cbv beta in Pbs. apply wp_ret. constructor; auto. eapply Hmono; eauto.
Qed.

Lemma wp_mux3 md s S0 sel (c : list (list F)) :
  okS s S0 -> Forall (good md s S0) sel ->
  (md <> Sound -> length sel = 3%nat /\ Forall (fun col => length col = 8%nat) c) ->
  wp md s S0 (c_mux3 sel c) (fun S1 r =>
    Forall (good md s S1) r /\ length r = length c /\
    (length sel = 3%nat /\ Forall (fun col => length col = 8%nat) c) /\
    (forall bs, ebits s sel bs -> md <> Setup -> map (ceval s) r = map (mux_sel bs) c)).
Proof.
  intros HS Hsel Hh. unfold c_mux3.
  destruct sel as [|s0 [|s1 [|s2 [|? ?]]]];
    try (destruct md; cbn; auto; exfalso; destruct (Hh ltac:(discriminate)) as [Hh' _]; discriminate Hh').
  inversion Hsel as [|? ? G0 Hs1]; subst. inversion Hs1 as [|? ? G1 Hs2]; subst. inversion Hs2 as [|? ? G2 _]; subst.
  destruct (forallb (fun col => Nat.eqb (length col) 8) c) eqn:Ef; cycle 1.
  { cbn [passert pbind wp]. destruct md; auto; exfalso; destruct (Hh ltac:(discriminate)) as [_ Hh'];
      (rewrite (proj2 (forallb_forall _ _)) in Ef; [discriminate|]);
      intros col Hc; apply Nat.eqb_eq; rewrite Forall_forall in Hh'; auto. }
  cbn [passert pbind].
  assert (H8 : Forall (fun col => length col = 8%nat) c).
  { apply Forall_forall. intros col Hc. rewrite forallb_forall in Ef. apply Nat.eqb_eq; auto. }
  eapply wp_use; [apply (wp_cmul Hp); [auto|exact G0|exact G1]|].
  intros S1 s10 I1 [G10 E10]. assert (HS1 : okS s S1) by (eapply okS_incl; eauto).
  eapply wp_mono.
  { apply (wp_pmapM md s _ (fun S2 col r => good md s S2 r /\
     (forall bs, ebits s [s0; s1; s2] bs -> md <> Setup -> ceval s r = mux_sel bs col))).
    - intros A B col r HI [X Y]. split; auto. eapply good_incl; eauto.
    - intros S2 col Hc I2. eapply wp_mono.
      + apply (wp_mux3_col md s S2 s0 s1 s2 s10 col);
          try (eapply good_incl; [eassumption|eauto using incl_tran]). eapply okS_incl; eauto.
      + intros S3 r _ [Gr Er]. split; auto. intros bs Hbs Hm.
        inversion Hbs as [|? b0 ? bs1 E0 Hb1]; subst. inversion Hb1 as [|? b1 ? bs2 E1 Hb2]; subst.
        inversion Hb2 as [|? b2 ? bs3 E2 Hb3]; subst. inversion Hb3; subst.
        apply Er; auto. rewrite Forall_forall in H8. auto. }
  intros S2 r I2 HF. split; [|split; [|split; [auto|]]].
  - clear -HF. induction HF as [|? ? ? ? [? _]]; constructor; auto.
  - clear -HF. induction HF; cbn; congruence.
  - intros bs Hbs Hm. clear -HF Hbs Hm. induction HF as [|col r' c r [_ H] HF IH]; cbn [map]; auto.
    rewrite IH, (H bs) by auto. reflexivity.
Qed.
End BitifySpec.
