(** What the Poseidon gadgets compute. *)

From Verif Require Export NumSpec Bitify BitifySpec Poseidon Always.

Section PoseidonSpec.
Context {p : positive} (Hp : prime (Zpos p)).
Notation F := (Num p).
Open Scope num_scope.
Add Field ps_field : (num_field Hp) (morphism (@num_morph p), constants [num_cst], power_tac (@num_power p) [num_pow_cst]).
Implicit Types (P : PoseidonParams p) (s : Index -> Num p).

(** Dimensions as produced by PoseidonParams::new. *)
Definition pp_ok P : Prop :=
  length (ppc P) = (ppf P + ppp P)%nat /\ length (ppm P) = ppt P /\
  Forall (fun row => length row = ppt P) (ppm P).

Lemma mix_row_ok row st (a : F) : (length st <= length row)%nat -> exists r, mix_row row st a = Ok r.
Proof.
  revert row a. induction st as [|x st IH]; intros row a H; cbn [mix_row]; [eauto|].
  destruct row as [|k row]; cbn in H; [lia|]. apply IH. lia.
Qed.
Lemma mix_rows_ok n m (st : list F) : (n <= length m)%nat -> Forall (fun row => (length st <= length row)%nat) m ->
  exists r, mix_rows n m st = Ok r /\ length r = n.
Proof.
  revert m. induction n as [|n IH]; intros m H Hm; cbn [mix_rows]; [eauto|].
  destruct m as [|row m]; cbn in H; [lia|]. inversion Hm as [|? ? H1 H2]; subst.
  destruct (mix_row_ok row st 0 H1) as [x ->]. destruct (IH m) as [xs [-> E]]; [lia|auto|].
  cbn. eexists. split; [reflexivity|]. cbn. congruence.
Qed.
Lemma mix_ok P (st : list F) : pp_ok P -> length st = ppt P -> exists r, mix (ppm P) st = Ok r /\ length r = ppt P.
Proof.
  intros [_ [H1 H2]] E. unfold mix. rewrite <- E. apply mix_rows_ok; [lia|].
  eapply Forall_impl; [|exact H2]. cbn. intros; lia.
Qed.
Lemma mix_rows_length n m (st r : list F) : mix_rows n m st = Ok r -> length r = n.
Proof.
  revert m r. induction n as [|n IH]; intros [|row m] r H; cbn in H; try discriminate.
  - assert (r = []) by congruence. now subst.
  - assert (r = []) by congruence. now subst.
  - destruct (mix_row row st 0); [|discriminate]. cbn in H. destruct (mix_rows n m st) eqn:E; [|discriminate].
    cbn in H. assert (r = a :: a0) by congruence. subst. cbn. f_equal. eauto.
Qed.
Lemma round_ok P i (st : list F) : pp_ok P -> length st = ppt P -> (0 < ppt P)%nat -> (i < ppf P + ppp P)%nat ->
  exists r, round P i st = Ok r /\ length r = ppt P.
Proof.
  intros HP E Ht Hi. unfold round. destruct (nth_error (ppc P) i) as [c|] eqn:Ec.
  2:{ apply nth_error_None in Ec. destruct HP. lia. }
  cbn [unwrap rbind]. destruct (full_round P i); cbn [rbind].
  - apply mix_ok; auto. unfold ark; now rewrite !map_length.
  - destruct st as [|x st]; cbn in E; [lia|]. cbn [ark map rbind]. apply mix_ok; auto. cbn. now rewrite map_length.
Qed.
Lemma rounds_ok P is : pp_ok P -> (0 < ppt P)%nat -> (forall i, In i is -> (i < ppf P + ppp P)%nat) ->
  forall st : list F, length st = ppt P -> exists r, rounds P is st = Ok r /\ length r = ppt P.
Proof.
  intros HP Ht. induction is as [|i is IH]; intros Hi st E; cbn [rounds]; [eauto|].
  destruct (round_ok P i st) as [r [-> Er]]; auto; [apply Hi; now left|]. cbn [rbind].
  apply IH; auto. intros j Hj. apply Hi. now right.
Qed.
Lemma poseidon_ok P (ins : list F) : pp_ok P -> (0 < length ins <= ppt P)%nat -> exists r, poseidon P ins = Ok r.
Proof.
  intros HP [H1 H2]. unfold poseidon. rewrite (proj2 (Nat.leb_le _ _) H2), (proj2 (Nat.ltb_lt _ _) H1). cbn [rassert rbind].
  destruct (rounds_ok P (seq 0 (ppf P + ppp P)) HP) with (st := ins ++ repeat (0 : F) (ppt P - length ins)) as [r [-> Er]].
  - lia.
  - intros i Hi. apply in_seq in Hi. lia.
  - rewrite app_length, repeat_length. lia.
  - cbn [rbind]. destruct r as [|x r]; cbn in Er; [lia|]. cbn. eauto.
Qed.
Lemma poseidon_len P (ins : list F) r : poseidon P ins = Ok r -> (0 < length ins <= ppt P)%nat.
Proof.
  unfold poseidon. destruct (Nat.leb (length ins) (ppt P)) eqn:E1; cbn [rassert rbind]; [|discriminate].
  destruct (Nat.ltb 0 (length ins)) eqn:E2; cbn [rassert rbind]; [|discriminate].
  intros _. apply Nat.leb_le in E1. apply Nat.ltb_lt in E2. lia.
Qed.

(** The mix layer commutes with evaluation. *)
Lemma c_mix_row_eval s row (st : list (CNum p)) a : mix_row row (map (ceval s) st) (ceval s a) = rmap (ceval s) (c_mix_row row st a).
Proof.
  revert row a. induction st as [|x st IH]; intros [|k row] a; cbn [mix_row c_mix_row map rmap]; auto.
  rewrite <- IH. f_equal. rewrite ceval_add, ceval_mul_num. ring.
Qed.
Lemma c_mix_rows_eval s n m (st : list (CNum p)) : s I0 = 1 -> mix_rows n m (map (ceval s) st) = rmap (map (ceval s)) (c_mix_rows n m st).
Proof.
  intros Hs. revert m. induction n as [|n IH]; intros [|row m]; cbn [mix_rows c_mix_rows rmap]; auto.
  rewrite IH. replace (0 : F) with (ceval s czero) by (now rewrite ceval_zero). rewrite c_mix_row_eval.
  destruct (c_mix_row row st czero); cbn; auto. destruct (c_mix_rows n m st); cbn; auto.
Qed.
Lemma c_mix_eval s m (st : list (CNum p)) : s I0 = 1 -> st <> [] -> mix m (map (ceval s) st) = rmap (map (ceval s)) (c_mix m st).
Proof.
  intros Hs Hn. unfold mix. rewrite map_length, c_mix_rows_eval by auto. unfold c_mix. destruct st; [congruence|reflexivity].
Qed.
Lemma c_mix_row_good md s S0 row (st : list (CNum p)) a r : okS s S0 -> Forall (good md s S0) st -> good md s S0 a ->
  c_mix_row row st a = Ok r -> good md s S0 r.
Proof.
  intros HS Hst. revert row a. induction Hst as [|x st Hx Hst IH]; intros [|k row] a Ha E; cbn [c_mix_row] in E;
    try discriminate; try (assert (r = a) by congruence; now subst).
  eapply IH; [|exact E]. auto with alw.
Qed.
Lemma c_mix_rows_good md s S0 n m (st : list (CNum p)) r : okS s S0 -> Forall (good md s S0) st ->
  c_mix_rows n m st = Ok r -> Forall (good md s S0) r.
Proof.
  intros HS Hst. revert m r. induction n as [|n IH]; intros [|row m] r E; cbn [c_mix_rows] in E;
    try discriminate; try (assert (r = []) by congruence; subst; constructor).
  destruct (c_mix_row row st czero) as [x|] eqn:E1; [|discriminate]. cbn [rbind] in E.
  destruct (c_mix_rows n m st) as [xs|] eqn:E2; [|discriminate]. cbn [rbind] in E.
  assert (r = x :: xs) by congruence. subst. constructor; eauto.
  eapply c_mix_row_good; [..|exact E1]; auto with alw.
Qed.
Lemma c_mix_good md s S0 m (st : list (CNum p)) r : okS s S0 -> Forall (good md s S0) st -> c_mix m st = Ok r -> Forall (good md s S0) r.
Proof. unfold c_mix. destruct st; [discriminate|]. apply c_mix_rows_good. Qed.

Lemma wp_sigma md s S0 (a : CNum p) : okS s S0 -> good md s S0 a ->
  wp md s S0 (c_sigma a) (fun S1 r => post_eval md s S1 r (sigma (ceval s a))).
Proof.
  intros HS G. unfold c_sigma. eapply wp_use; [apply (wp_cmul Hp); auto|]. intros S1 b I1 [G1 E1]. lift_good I1.
  eapply wp_use; [apply (wp_cmul Hp); auto|]. intros S2 c I2 [G2 E2]. lift_good I2.
  eapply wp_mono; [apply (wp_cmul Hp); auto|]. intros S3 d I3 [G3 E3]. split; auto. intros Hm.
  rewrite E3, E2, E1 by auto. reflexivity.
Qed.
Lemma Forall2_map_eq {A B C} (f : A -> C) (g : B -> C) (R : A -> B -> Prop) l l' :
  Forall2 R l l' -> (forall a b, R a b -> f a = g b) -> map f l = map g l'.
Proof. intros H E. induction H; cbn; f_equal; auto. Qed.
Lemma Forall2_len {A B} (R : A -> B -> Prop) l l' : Forall2 R l l' -> length l = length l'.
Proof. induction 1; cbn; congruence. Qed.
Lemma Forall2_right {A B} (T : B -> Prop) (R : A -> B -> Prop) l l' :
  Forall2 R l l' -> (forall a b, R a b -> T b) -> Forall T l'.
Proof. intros H E. induction H; constructor; eauto. Qed.
Lemma wp_map_sigma md s S0 (st : list (CNum p)) : okS s S0 -> Forall (good md s S0) st ->
  wp md s S0 (pmapM c_sigma st) (fun S1 r => Forall (good md s S1) r /\ length r = length st /\
    (md <> Setup -> map (ceval s) r = map sigma (map (ceval s) st))).
Proof.
  intros HS G. eapply wp_mono.
  - apply (wp_pmapM md s c_sigma (fun S1 a r => post_eval md s S1 r (sigma (ceval s a)))).
    + intros A B a b HI [X Y]. split; auto. eapply good_incl; eauto.
    + intros S1 a Ha I1. lift_good I1. apply wp_sigma; auto. rewrite Forall_forall in G. auto.
  - intros S1 r I1 H. cbv beta in H. split; [|split].
    + eapply Forall2_right; [exact H|]. now intros a b [? _].
    + symmetry. eapply Forall2_len; eauto.
    + intros Hm. rewrite map_map. symmetry. eapply Forall2_map_eq; [exact H|]. intros a b [_ E]. symmetry. auto.
Qed.
Lemma good_ark md s S0 (st : list (CNum p)) (c : F) : okS s S0 -> Forall (good md s S0) st -> Forall (good md s S0) (c_ark st c).
Proof. intros HS G. unfold c_ark. induction G; cbn; constructor; auto with alw. Qed.
Lemma ark_eval s (st : list (CNum p)) (c : F) : s I0 = 1 -> map (ceval s) (c_ark st c) = ark (map (ceval s) st) c.
Proof. intros H. unfold c_ark, ark. rewrite !map_map. apply map_ext. intros a. now apply ceval_add_num. Qed.

(** One round. In the honest and setup modes the dimensions must match; with
    any parameters, a circuit round that succeeds agrees with the native one. *)
Lemma wp_lift_mix md s S0 m (st : list (CNum p)) : okS s S0 -> Forall (good md s S0) st -> st <> [] ->
  (md <> Sound -> exists r, mix m (map (ceval s) st) = Ok r) ->
  wp md s S0 (plift (c_mix m st)) (fun S1 r => Forall (good md s S1) r /\
    mix m (map (ceval s) st) = Ok (map (ceval s) r)).
Proof.
  intros HS G Hn Hok. pose proof (c_mix_eval s m st (proj2 HS) Hn) as E. destruct (c_mix m st) as [r|] eqn:Er; cbn [plift].
  - apply wp_ret. split; [eapply c_mix_good; eauto|exact E].
  - cbn in E. destruct md; cbn; auto; destruct Hok as [r Hr]; try discriminate; congruence.
Qed.
Lemma wp_round md s S0 P i (st : list (CNum p)) : okS s S0 -> Forall (good md s S0) st -> st <> [] ->
  (md <> Sound -> pp_ok P /\ length st = ppt P /\ (i < ppf P + ppp P)%nat) ->
  wp md s S0 (c_round P i st) (fun S1 r => Forall (good md s S1) r /\ length r = length st /\
    (md <> Setup -> round P i (map (ceval s) st) = Ok (map (ceval s) r))).
Proof.
  intros HS G Hn Hd. assert (Hs1 : s I0 = 1) by apply HS. unfold c_round.
  destruct (nth_error (ppc P) i) as [c|] eqn:Ec; cbn [unwrap plift pbind].
  2:{ destruct md; cbn; auto; destruct Hd as [[Hd _] [_ Hi]]; try discriminate; apply nth_error_None in Ec; lia. }
  cbv zeta. unfold round. rewrite Ec. cbn [unwrap rbind]. cbv zeta.
  assert (Hmix : forall S1 st1, okS s S1 -> Forall (good md s S1) st1 -> length st1 = length st ->
     wp md s S1 (plift (c_mix (ppm P) st1)) (fun S2 r => Forall (good md s S2) r /\ length r = length st /\
        mix (ppm P) (map (ceval s) st1) = Ok (map (ceval s) r))).
  { intros S1 st1 HS1 G1 El. eapply wp_mono.
    - apply wp_lift_mix; auto; [destruct st1; [destruct st; cbn in El; congruence|discriminate]|].
      intros Hm. destruct (Hd Hm) as [HP [E2 _]]. destruct (mix_ok P (map (ceval s) st1)) as [r [Hr _]]; eauto.
      rewrite map_length. congruence.
    - intros S2 r I2 [Gr Er]. split; auto. split; auto. apply mix_rows_length in Er.
      rewrite !map_length in Er. congruence. }
  change (c_full_round P i) with (full_round P i). destruct (full_round P i) eqn:Ef.
  - eapply wp_use; [apply wp_map_sigma; auto using good_ark|]. intros S1 st1 I1 [G1 [L1 E1]]. lift_good I1.
    unfold c_ark in L1. rewrite map_length in L1. eapply wp_mono; [apply Hmix; auto|].
    intros S2 r I2 [Gr [Lr Er]]. split; auto. split; auto. intros Hm. cbn [rbind]. rewrite <- Er, E1 by auto.
    now rewrite ark_eval.
  - destruct st as [|x st]; [congruence|]. cbn [c_ark map]. fold (c_ark st c). inversion G as [|? ? Gx Gst]; subst.
    apply wp_bind. eapply wp_use; [apply wp_sigma; auto with alw|]. intros S1 y I1 [G1 E1]. lift_good I1. apply wp_ret.
    eapply wp_mono; [apply Hmix; auto|].
    + constructor; auto. apply good_ark; auto.
    + cbn. unfold c_ark. now rewrite map_length.
    + intros S2 r I2 [Gr [Lr Er]]. split; auto. split; auto. intros Hm. cbn [ark map rbind]. fold (ark (map (ceval s) st) c).
      rewrite <- Er. cbn [map]. rewrite E1, ark_eval, ceval_add_num by auto. reflexivity.
Qed.
Lemma wp_rounds md s P is : forall S0 st, okS s S0 -> Forall (good md s S0) (st : list (CNum p)) -> st <> [] ->
  (md <> Sound -> pp_ok P /\ length st = ppt P /\ (forall i, In i is -> (i < ppf P + ppp P)%nat)) ->
  wp md s S0 (c_rounds P is st) (fun S1 r => Forall (good md s S1) r /\ length r = length st /\
    (md <> Setup -> rounds P is (map (ceval s) st) = Ok (map (ceval s) r))).
Proof.
  induction is as [|i is IH]; intros S0 st HS G Hn Hd; cbn [c_rounds rounds].
  - apply wp_ret. auto.
  - eapply wp_use; [apply wp_round; auto|].
    + intros Hm. destruct (Hd Hm) as [H1 [H2 H3]]. repeat split; try apply H1; auto. apply H3. now left.
    + intros S1 st1 I1 [G1 [L1 E1]]. lift_good I1. eapply wp_mono; [apply IH; auto|].
      * destruct st1; [destruct st; cbn in L1; congruence|discriminate].
      * intros Hm. destruct (Hd Hm) as [H1 [H2 H3]]. repeat split; try apply H1; try congruence. intros j Hj. apply H3. now right.
      * intros S2 r I2 [Gr [Lr Er]]. split; auto. split; [congruence|]. intros Hm. rewrite E1 by auto. cbn [rbind]. auto.
Qed.
Lemma map_repeat {A B} (f : A -> B) x n : map f (repeat x n) = repeat (f x) n.
Proof. induction n; cbn; f_equal; auto. Qed.
Lemma Forall_repeat {A} (T : A -> Prop) x n : T x -> Forall T (repeat x n).
Proof. intros. induction n; cbn; constructor; auto. Qed.
Lemma wp_poseidon md s S0 P (ins : list (CNum p)) : okS s S0 -> Forall (good md s S0) ins ->
  (md <> Sound -> pp_ok P /\ (0 < length ins <= ppt P)%nat) ->
  wp md s S0 (c_poseidon P ins) (fun S1 r => good md s S1 r /\
    (md <> Setup -> poseidon P (map (ceval s) ins) = Ok (ceval s r))).
Proof.
  intros HS G Hd. unfold c_poseidon, poseidon. rewrite map_length.
  destruct (Nat.leb (length ins) (ppt P)) eqn:E1; cycle 1.
  { apply Nat.leb_gt in E1. destruct md; cbn; auto; destruct Hd; try discriminate; lia. }
  destruct (Nat.ltb 0 (length ins)) eqn:E2; cycle 1.
  { apply Nat.ltb_ge in E2. destruct md; cbn; auto; destruct Hd; try discriminate; lia. }
  cbn [passert pbind rassert rbind]. apply Nat.leb_le in E1. apply Nat.ltb_lt in E2.
  assert (Ln : length (ins ++ repeat czero (ppt P - length ins)) = ppt P) by (rewrite app_length, repeat_length; lia).
  eapply wp_use; [apply wp_rounds; auto|].
  - apply Forall_app. split; auto. apply Forall_repeat. auto with alw.
  - destruct ins; [cbn in E2; lia|discriminate].
  - intros Hm. destruct (Hd Hm) as [H1 H2]. repeat split; try apply H1; auto. intros i Hi. apply in_seq in Hi. lia.
  - intros S1 st I1 [Gst [Lst Est]]. rewrite Ln in Lst. destruct st as [|x st]; [cbn in Lst; lia|]. cbn [nth_error unwrap plift].
    apply wp_ret. inversion Gst; subst. split; auto. intros Hm.
    rewrite map_app, map_repeat in Est. rewrite ceval_zero in Est by apply HS. rewrite Est by auto. reflexivity.
Qed.

(** ** Salt *)
Lemma wp_poseidon_with_salt md s S0 P (ins : list (CNum p)) (salt : F) : okS s S0 -> Forall (good md s S0) ins ->
  (md <> Sound -> pp_ok P /\ (0 < length ins < ppt P)%nat) ->
  wp md s S0 (c_poseidon_with_salt P ins salt) (fun S1 r => good md s S1 r /\
    (md <> Setup -> poseidon_with_salt P (map (ceval s) ins) salt = Ok (ceval s r))).
Proof.
  intros HS G Hd. unfold c_poseidon_with_salt, poseidon_with_salt. rewrite map_length.
  destruct (Nat.ltb 0 (length ins)) eqn:E2; cycle 1.
  { apply Nat.ltb_ge in E2. destruct md; cbn; auto; destruct Hd; try discriminate; lia. }
  destruct (Nat.ltb (length ins) (ppt P)) eqn:E1; cycle 1.
  { apply Nat.ltb_ge in E1. destruct md; cbn; auto; destruct Hd; try discriminate; lia. }
  cbn [passert pbind rassert rbind]. eapply wp_mono; [apply wp_poseidon; auto|].
  - apply Forall_app. split; auto. constructor; auto with alw.
  - intros Hm. destruct (Hd Hm). split; auto. rewrite app_length; cbn. lia.
  - intros S1 r _ [Gr Er]. split; auto. intros Hm. rewrite <- (Er Hm), map_app. cbn [map].
    rewrite ceval_const by apply HS. reflexivity.
Qed.

(** ** Merkle proofs *)
Lemma wp_switch_nc md s S0 a bit b :
  okS s S0 -> good md s S0 a -> good md s S0 bit -> good md s S0 b -> nonconst bit ->
  wp md s S0 (cswitch a bit b) (fun S1 r =>
     post_eval md s S1 r (ceval s b + ceval s bit * (ceval s a - ceval s b))).
Proof.
  intros HS Ha Hbit Hb Hn. unfold cswitch, cb_as_const. unfold nonconst, CBool in *. rewrite Hn. cbn [omapM plift pbind].
  destruct Nat.ltb.
  - eapply wp_use; [apply (wp_cmul Hp); auto with alw|]. intros S1 t I1 [Gt Et]. lift_good I1. apply wp_ret.
    split; [auto with alw|]. intros Hm. rewrite ceval_add_rv, (Et Hm), ceval_sub. ring.
  - eapply wp_use; [apply (wp_cmul Hp); auto with alw|]. intros S1 t I1 [Gt Et]. lift_good I1. apply wp_ret.
    split; [auto with alw|]. intros Hm. rewrite ceval_add_rv, (Et Hm), ceval_sub, ceval_num_sub by apply HS. ring.
Qed.

Lemma wp_merkle_proof md s P : forall proof S0 root, okS s S0 -> good md s S0 root ->
  Forall (fun bs => good md s S0 (fst bs) /\ good md s S0 (snd bs)) proof ->
  (md = Honest -> Forall (fun bs => isbit (ceval s (fst bs))) proof) ->
  (md = Setup -> Forall (fun bs => forall v, as_const (fst bs) = Some v -> isbit v) proof) ->
  (md <> Sound -> pp_ok P /\ (2 <= ppt P)%nat) ->
  wp md s S0 (c_merkle_proof_root P root proof) (fun S1 r => good md s S1 r /\
    (md <> Setup -> forall bs, ebits s (map fst proof) bs ->
       merkle_proof_root P (ceval s root) (combine bs (map (ceval s) (map snd proof))) = Ok (ceval s r))).
Proof.
  induction proof as [|[b c] proof IH]; intros S0 root HS Gr Gp Hh Hsu Hd; cbn [c_merkle_proof_root].
  - apply wp_ret. split; auto. intros _ bs Hb. inversion Hb; subst. reflexivity.
  - inversion Gp as [|? ? [Gb Gc] Gp']; subst. cbn [fst snd] in *.
    eapply wp_use.
    { apply (wp_switch Hp); auto.
      - intros E. specialize (Hh E). inversion Hh; subst. auto.
      - intros E. specialize (Hsu E). inversion Hsu; subst. auto. }
    intros S1 first I1 [Gf [Ef1 Ef0]].
    assert (Gp1 : Forall (fun bs => good md s S1 (fst bs) /\ good md s S1 (snd bs)) proof).
    { eapply Forall_impl; [|exact Gp']. cbn. intros x [X Y]. split; eapply good_incl; eauto. }
    lift_good I1. cbv zeta.
    eapply wp_use.
    { apply (wp_poseidon md s S1 P [first; csub (cadd_cap root c) first]); auto with alw.
      intros Hm. destruct (Hd Hm). split; auto. cbn. lia. }
    intros S2 h I2 [Gh Eh].
    assert (Gp2 : Forall (fun bs => good md s S2 (fst bs) /\ good md s S2 (snd bs)) proof).
    { eapply Forall_impl; [|exact Gp1]. cbn. intros x [X Y]. split; eapply good_incl; eauto. }
    lift_good I2. eapply wp_mono.
    { apply IH; auto.
      - intros E. specialize (Hh E). inversion Hh; subst. auto.
      - intros E. specialize (Hsu E). inversion Hsu; subst. auto. }
    intros S3 r I3 [Gr3 Er]. split; auto. intros Hm bs Hb. cbn [map fst snd] in Hb. inversion Hb as [|? b0 ? bs' Eb Hb']; subst.
    cbn [map combine merkle_proof_root snd]. specialize (Eh Hm). cbn [map] in Eh. rewrite ceval_sub, ceval_add_cap in Eh.
    destruct b0; cbn [nbool] in Eb.
    + rewrite (Ef1 Hm Eb) in Eh. replace (ceval s root + ceval s c - ceval s c) with (ceval s root) in Eh by ring.
      rewrite Eh. cbn [rbind]. auto.
    + rewrite (Ef0 Hm Eb) in Eh. replace (ceval s root + ceval s c - ceval s root) with (ceval s c) in Eh by ring.
      rewrite Eh. cbn [rbind]. auto.
Qed.

(** With an unconstrained path variable the pair hashed is arbitrary. *)
Lemma wp_merkle_free md s P S0 root bit sib : okS s S0 -> good md s S0 root -> good md s S0 bit -> good md s S0 sib ->
  nonconst bit -> (md <> Sound -> pp_ok P /\ (2 <= ppt P)%nat) ->
  wp md s S0 (c_merkle_proof_root P root [(bit, sib)]) (fun S1 r => good md s S1 r /\
    (md <> Setup -> let a := ceval s root + ceval s bit * (ceval s sib - ceval s root) in
       poseidon P [a; ceval s root + ceval s sib - a] = Ok (ceval s r))).
Proof.
  intros HS Gr Gb Gs Hn Hd. cbn [c_merkle_proof_root]. eapply wp_use; [apply wp_switch_nc; auto|].
  intros S1 first I1 [Gf Ef]. lift_good I1. cbv zeta. eapply wp_use.
  { apply (wp_poseidon md s S1 P [first; csub (cadd_cap root sib) first]); auto with alw.
    intros Hm. destruct (Hd Hm). split; auto. cbn. lia. }
  intros S2 h I2 [Gh Eh]. apply wp_ret. split; auto. intros Hm. specialize (Eh Hm). cbn [map] in Eh.
  rewrite ceval_sub, ceval_add_cap, (Ef Hm) in Eh. exact Eh.
Qed.

(** ** Merkle trees *)
Lemma set_nth_length {A} i (x : A) l : length (set_nth i x l) = length l.
Proof. revert i. induction l as [|y l IH]; intros [|i]; cbn; auto. Qed.
Lemma nth_set_nth {A} i j (x d : A) l : (i < length l)%nat -> nth j (set_nth i x l) d = if Nat.eqb j i then x else nth j l d.
Proof.
  revert i j. induction l as [|y l IH]; intros [|i] [|j] H; cbn in *; try lia; auto.
  rewrite IH by lia. reflexivity.
Qed.
Lemma nth_error_set_nth {A} i j (x : A) l : (i < length l)%nat ->
  nth_error (set_nth i x l) j = if Nat.eqb j i then Some x else nth_error l j.
Proof.
  revert i j. induction l as [|y l IH]; intros [|i] [|j] H; cbn in *; try lia; auto.
  rewrite IH by lia. reflexivity.
Qed.
Lemma map_set_nth {A B} (f : A -> B) i x l : map f (set_nth i x l) = set_nth i (f x) (map f l).
Proof. revert i. induction l as [|y l IH]; intros [|i]; cbn; auto. now rewrite IH. Qed.
Lemma Forall_set_nth {A} (T : A -> Prop) i x l : Forall T l -> T x -> Forall T (set_nth i x l).
Proof. intros H Hx. revert i. induction H; intros [|i]; cbn; auto. Qed.

Lemma tree_level_ok P (h : F -> F -> F) : (forall a b, poseidon P [a; b] = Ok (h a b)) ->
  forall k i st, (2 * (i + k) <= length st)%nat -> exists st', tree_level P (seq i k) st = Ok st' /\
    length st' = length st /\ forall x, nth x st' 0 =
      if (Nat.leb i x && Nat.ltb x (i + k))%bool then h (nth (2 * x) st 0) (nth (2 * x + 1) st 0) else nth x st 0.
Proof.
  intros Hh. induction k as [|k IH]; intros i st H.
  - exists st. split; [reflexivity|]. split; auto. intros x.
    replace (Nat.leb i x && Nat.ltb x (i + 0))%bool with false; auto.
    symmetry. apply Bool.andb_false_iff. rewrite Nat.leb_gt, Nat.ltb_ge. lia.
  - cbn [seq tree_level].
    rewrite (nth_error_nth' st 0) by lia. rewrite (nth_error_nth' st 0) by lia. cbn [unwrap rbind].
    rewrite Hh. cbn [rbind]. rewrite (proj2 (Nat.ltb_lt i (length st))) by lia. cbn [rassert rbind].
    destruct (IH (S i) (set_nth i (h (nth (2 * i) st 0) (nth (2 * i + 1) st 0)) st)) as [st' [E1 [E2 E3]]].
    { rewrite set_nth_length. lia. }
    exists st'. split; [exact E1|]. rewrite set_nth_length in E2. split; [exact E2|].
    intros x. rewrite E3. rewrite !nth_set_nth by lia.
    destruct (Nat.eqb x i) eqn:Ex.
    + apply Nat.eqb_eq in Ex. subst x. rewrite (proj2 (Nat.leb_gt (S i) i)) by lia.
      rewrite (proj2 (Nat.leb_le i i)), (proj2 (Nat.ltb_lt i (i + S k))) by lia. reflexivity.
    + apply Nat.eqb_neq in Ex.
      replace (Nat.leb i x && Nat.ltb x (i + S k))%bool with (Nat.leb (S i) x && Nat.ltb x (S i + k))%bool.
      2:{ apply Bool.eq_iff_eq_true. rewrite !Bool.andb_true_iff, !Nat.leb_le, !Nat.ltb_lt. lia. }
      destruct (Nat.leb (S i) x && Nat.ltb x (S i + k))%bool eqn:Eb; auto.
      apply Bool.andb_true_iff in Eb as [Eb _]. apply Nat.leb_le in Eb.
      rewrite (proj2 (Nat.eqb_neq (2 * x) i)), (proj2 (Nat.eqb_neq (2 * x + 1) i)) by lia. reflexivity.
Qed.

(** Node [k] of level [j] of the tree over a list of leaves, zero beyond it. *)
Fixpoint node (h : F -> F -> F) (leaf : list F) (j k : nat) : F :=
  match j with
  | O => nth k leaf 0
  | S j' => h (node h leaf j' (2 * k)) (node h leaf j' (2 * k + 1))
  end.
Lemma tree_levels_ok P h leaf sz : (forall a b, poseidon P [a; b] = Ok (h a b)) ->
  forall m j st, (j + m = sz)%nat -> length st = (2 ^ sz)%nat ->
  (forall x, (x < 2 ^ (sz - j))%nat -> nth x st 0 = node h leaf j x) ->
  exists st', tree_levels P (2 ^ sz) (seq j m) st = Ok st' /\ length st' = (2 ^ sz)%nat /\ nth 0 st' 0 = node h leaf sz 0.
Proof.
  intros Hh. induction m as [|m IH]; intros j st Hj Hl Hn.
  - exists st. cbn. split; [reflexivity|]. split; auto. assert (j = sz) by lia. subst j. apply Hn.
    apply Nat.neq_0_lt_0, Nat.pow_nonzero. lia.
  - cbn [seq tree_levels].
    assert (Ed : (2 ^ sz / 2 ^ (j + 1) = 2 ^ (sz - (j + 1)))%nat).
    { rewrite <- Nat.pow_sub_r by lia. reflexivity. }
    rewrite Ed. destruct (tree_level_ok P h Hh (2 ^ (sz - (j + 1))) 0 st) as [st' [E1 [E2 E3]]].
    { rewrite Hl. cbn [plus]. replace (2 * 2 ^ (sz - (j + 1)))%nat with (2 ^ S (sz - (j + 1)))%nat by (cbn; lia).
      apply Nat.pow_le_mono_r; lia. }
    rewrite E1. cbn [rbind]. apply IH; [lia|congruence|].
    intros x Hx. rewrite E3. replace (Nat.leb 0 x) with true by reflexivity. cbn [andb]. replace (0 + 2 ^ (sz - (j + 1)))%nat with (2 ^ (sz - S j))%nat by (rewrite Nat.add_0_l; f_equal; lia).
    rewrite (proj2 (Nat.ltb_lt _ _) Hx). cbn [node].
    assert (2 ^ (sz - j) = 2 * 2 ^ (sz - S j))%nat by (replace (sz - j)%nat with (S (sz - S j)) by lia; rewrite Nat.pow_succ_r'; reflexivity).
    rewrite !Hn by lia. reflexivity.
Qed.
Lemma bit_len_bound n : (0 < n)%nat -> (n <= 2 ^ bit_len (n - 1))%nat.
Proof.
  intros H. unfold bit_len. destruct (n - 1)%nat as [|m] eqn:E; [cbn; lia|].
  pose proof (Nat.log2_spec (S m) ltac:(lia)). lia.
Qed.
Lemma nth_app_zeros (l : list F) n x : nth x (l ++ repeat 0 n) 0 = nth x l 0.
Proof.
  destruct (Nat.lt_ge_cases x (length l)); [now apply app_nth1|].
  rewrite app_nth2, nth_repeat by lia. symmetry. now apply nth_overflow.
Qed.
Lemma tree_root_ok P h (leaf : list F) : (forall a b, poseidon P [a; b] = Ok (h a b)) -> (0 < length leaf)%nat ->
  poseidon_merkle_tree_root P leaf = Ok (node h leaf (bit_len (length leaf - 1)) 0).
Proof.
  intros Hh Hl. unfold poseidon_merkle_tree_root. rewrite (proj2 (Nat.ltb_lt _ _) Hl). cbn [rassert rbind]. cbv zeta.
  set (sz := bit_len (length leaf - 1)). pose proof (bit_len_bound _ Hl). fold sz in H.
  destruct (tree_levels_ok P h leaf sz Hh sz 0 (leaf ++ repeat 0 (2 ^ sz - length leaf))) as [st [E1 [E2 E3]]].
  - lia.
  - rewrite app_length, repeat_length. lia.
  - intros x _. cbn [node]. apply nth_app_zeros.
  - rewrite E1. cbn [rbind]. destruct st as [|x st].
    + exfalso. cbn in E2. pose proof (Nat.pow_nonzero 2 sz). lia.
    + cbn in E3. subst x. reflexivity.
Qed.
(** The path of leaf [i]: its bits; the siblings are the neighbours. *)
Lemma proof_root_node P h (leaf : list F) : (forall a b, poseidon P [a; b] = Ok (h a b)) ->
  forall m j i, merkle_proof_root P (node h leaf j i)
    (map (fun d => (Nat.testbit i d, node h leaf (j + d) (Nat.lxor (i / 2 ^ d) 1))) (seq 0 m)) =
    Ok (node h leaf (j + m) (i / 2 ^ m)).
Proof.
  intros Hh. induction m as [|m IH]; intros j i.
  - cbn [seq map merkle_proof_root]. now rewrite Nat.add_0_r, Nat.pow_0_r, Nat.div_1_r.
  - cbn [seq map merkle_proof_root]. rewrite <- seq_shift, map_map.
    replace (i / 2 ^ 0)%nat with i by (now rewrite Nat.pow_0_r, Nat.div_1_r). rewrite Nat.add_0_r.
    assert (Hi : poseidon P (if Nat.testbit i 0 then [node h leaf j (Nat.lxor i 1); node h leaf j i]
        else [node h leaf j i; node h leaf j (Nat.lxor i 1)]) = Ok (node h leaf (S j) (i / 2))).
    { cbn [node]. destruct (Nat.testbit i 0) eqn:E; rewrite Hh; f_equal; f_equal; f_equal.
      - rewrite Nat.bit0_odd in E. apply Nat.odd_spec in E as [k ->].
        replace ((2 * k + 1) / 2)%nat with k by (apply (Nat.div_unique _ 2 _ 1); lia).
        apply Nat.bits_inj. intros [|n]; rewrite Nat.lxor_spec.
        + now rewrite Nat.testbit_odd_0, Nat.testbit_even_0.
        + rewrite Nat.testbit_odd_succ, Nat.testbit_even_succ by lia.
          replace (Nat.testbit 1 (S n)) with false by (cbn; now rewrite Nat.testbit_0_l). now rewrite Bool.xorb_false_r.
      - rewrite Nat.bit0_odd in E. apply Nat.odd_spec in E as [k ->].
        replace ((2 * k + 1) / 2)%nat with k by (apply (Nat.div_unique _ 2 _ 1); lia). reflexivity.
      - rewrite Nat.bit0_odd in E. assert (E' : Nat.even i = true) by (rewrite <- Nat.negb_odd, E; reflexivity).
        apply Nat.even_spec in E' as [k ->]. rewrite (Nat.mul_comm 2 k), Nat.div_mul by lia. lia.
      - rewrite Nat.bit0_odd in E. assert (E' : Nat.even i = true) by (rewrite <- Nat.negb_odd, E; reflexivity).
        apply Nat.even_spec in E' as [k ->]. replace (2 * k / 2)%nat with k by (apply (Nat.div_unique _ 2 _ 0); lia).
        apply Nat.bits_inj. intros [|n]; rewrite Nat.lxor_spec.
        + now rewrite Nat.testbit_odd_0, Nat.testbit_even_0.
        + rewrite Nat.testbit_odd_succ, Nat.testbit_even_succ by lia.
          replace (Nat.testbit 1 (S n)) with false by (cbn; now rewrite Nat.testbit_0_l). now rewrite Bool.xorb_false_r. }
    rewrite Hi. cbn [rbind].
    replace (j + S m)%nat with (S j + m)%nat by lia.
    replace (i / 2 ^ S m)%nat with ((i / 2) / 2 ^ m)%nat by (rewrite Nat.div_div by (try apply Nat.pow_nonzero; lia); reflexivity).
    rewrite <- IH. f_equal. apply map_ext. intros d. f_equal.
    + rewrite <- Nat.div2_div. reflexivity.
    + f_equal; [lia|]. f_equal. rewrite Nat.div_div by (try apply Nat.pow_nonzero; lia). reflexivity.
Qed.

(** The circuit tree. *)
Lemma nth_error_Forall {A} (T : A -> Prop) l i x : Forall T l -> nth_error l i = Some x -> T x.
Proof. intros H E. rewrite Forall_forall in H. apply H. eapply nth_error_In; eauto. Qed.
Lemma wp_tree_level md s P is : forall S0 st, okS s S0 -> Forall (good md s S0) st ->
  (md <> Sound -> pp_ok P /\ (2 <= ppt P)%nat /\ forall i, In i is -> (2 * i + 1 < length st)%nat) ->
  wp md s S0 (c_tree_level P is st) (fun S1 r => Forall (good md s S1) r /\ length r = length st /\
    (md <> Setup -> tree_level P is (map (ceval s) st) = Ok (map (ceval s) r))).
Proof.
  induction is as [|i is IH]; intros S0 st HS G Hd; cbn [c_tree_level tree_level].
  - apply wp_ret. auto.
  - destruct (nth_error st (2 * i)) as [a|] eqn:Ea.
    2:{ destruct md; cbn; auto; destruct Hd as [_ [_ Hd]]; try discriminate; specialize (Hd i (or_introl eq_refl));
        apply nth_error_None in Ea; lia. }
    destruct (nth_error st (2 * i + 1)) as [b|] eqn:Eb.
    2:{ destruct md; cbn; auto; destruct Hd as [_ [_ Hd]]; try discriminate; specialize (Hd i (or_introl eq_refl));
        apply nth_error_None in Eb; lia. }
    cbn [unwrap plift pbind]. rewrite !nth_error_map, Ea, Eb. cbn [option_map unwrap rbind].
    assert (Hlt : (2 * i + 1 < length st)%nat) by (apply nth_error_Some; congruence).
    eapply wp_use.
    { apply (wp_poseidon md s S0 P [a; b]); auto.
      - constructor; [eapply nth_error_Forall; eauto|]. constructor; [eapply nth_error_Forall; eauto|constructor].
      - intros Hm. destruct (Hd Hm) as [H1 [H2 _]]. split; auto. cbn. lia. }
    intros S1 h I1 [Gh Eh]. lift_good I1. rewrite (proj2 (Nat.ltb_lt i (length st))) by lia. cbn [passert pbind].
    eapply wp_mono; [apply IH; auto|].
    + now apply Forall_set_nth.
    + intros Hm. destruct (Hd Hm) as [H1 [H2 H3]]. repeat split; try apply H1; auto. rewrite set_nth_length. intros j Hj. apply H3. now right.
    + intros S2 r I2 [Gr [Lr Er]]. rewrite set_nth_length in Lr. split; auto. split; auto. intros Hm.
      rewrite map_length, (proj2 (Nat.ltb_lt i (length st))) by lia. cbn [map] in Eh. rewrite (Eh Hm). cbn [rbind rassert].
      rewrite <- (Er Hm), map_set_nth. reflexivity.
Qed.
Lemma wp_tree_levels md s P total js : forall S0 st, okS s S0 -> Forall (good md s S0) st ->
  (md <> Sound -> pp_ok P /\ (2 <= ppt P)%nat /\ forall j, In j js -> (2 * (total / 2 ^ (j + 1)) <= length st)%nat) ->
  wp md s S0 (c_tree_levels P total js st) (fun S1 r => Forall (good md s S1) r /\ length r = length st /\
    (md <> Setup -> tree_levels P total js (map (ceval s) st) = Ok (map (ceval s) r))).
Proof.
  induction js as [|j js IH]; intros S0 st HS G Hd; cbn [c_tree_levels tree_levels].
  - apply wp_ret. auto.
  - eapply wp_use; [apply wp_tree_level; auto|].
    + intros Hm. destruct (Hd Hm) as [H1 [H2 H3]]. repeat split; try apply H1; auto. intros i Hi. apply in_seq in Hi.
      specialize (H3 j (or_introl eq_refl)). lia.
    + intros S1 st1 I1 [G1 [L1 E1]]. lift_good I1. eapply wp_mono; [apply IH; auto|].
      * intros Hm. destruct (Hd Hm) as [H1 [H2 H3]]. repeat split; try apply H1; auto. intros i Hi. rewrite L1. apply H3. now right.
      * intros S2 r I2 [Gr [Lr Er]]. split; auto. split; [congruence|]. intros Hm. rewrite (E1 Hm). cbn [rbind]. auto.
Qed.
Lemma wp_tree_root md s S0 P leaf : okS s S0 -> Forall (good md s S0) leaf ->
  (md <> Sound -> pp_ok P /\ (2 <= ppt P)%nat /\ (0 < length leaf)%nat) ->
  wp md s S0 (c_poseidon_merkle_tree_root P leaf) (fun S1 r => good md s S1 r /\
    (md <> Setup -> poseidon_merkle_tree_root P (map (ceval s) leaf) = Ok (ceval s r))).
Proof.
  intros HS G Hd. unfold c_poseidon_merkle_tree_root, poseidon_merkle_tree_root. rewrite map_length.
  destruct (Nat.ltb 0 (length leaf)) eqn:E2; cycle 1.
  { apply Nat.ltb_ge in E2. destruct md; cbn; auto; destruct Hd as [_ [_ Hd]]; try discriminate; lia. }
  apply Nat.ltb_lt in E2. cbn [passert pbind rassert rbind]. cbv zeta.
  set (sz := bit_len (length leaf - 1)). pose proof (bit_len_bound _ E2) as Hb. fold sz in Hb.
  assert (Ln : length (leaf ++ repeat czero (2 ^ sz - length leaf)) = (2 ^ sz)%nat) by (rewrite app_length, repeat_length; lia).
  eapply wp_use; [apply wp_tree_levels; auto|].
  - apply Forall_app. split; auto. apply Forall_repeat. auto with alw.
  - intros Hm. destruct (Hd Hm) as [H1 [H2 _]]. repeat split; try apply H1; auto. intros j Hj. rewrite Ln.
    pose proof (Nat.pow_nonzero 2 (j + 1) ltac:(lia)).
    assert (2 ^ sz / 2 ^ (j + 1) <= 2 ^ sz / 2)%nat.
    { apply Nat.div_le_compat_l. split; [lia|]. rewrite Nat.pow_add_r. cbn [Nat.pow Nat.mul].
      pose proof (Nat.pow_nonzero 2 j ltac:(lia)). lia. }
    pose proof (Nat.mul_div_le (2 ^ sz) 2 ltac:(lia)). lia.
  - intros S1 st I1 [Gst [Lst Est]]. rewrite Ln in Lst. destruct st as [|x st].
    { exfalso. cbn in Lst. pose proof (Nat.pow_nonzero 2 sz). lia. }
    cbn [nth_error unwrap plift]. apply wp_ret. inversion Gst; subst. split; auto. intros Hm.
    rewrite map_app, map_repeat in Est. rewrite ceval_zero in Est by apply HS. rewrite Est by auto. reflexivity.
Qed.
End PoseidonSpec.
