(** Claims about Poseidon and Merkle trees (native/poseidon.rs,
    circuit/poseidon.rs). *)

From Verif Require Export BitClaims PoseidonSpec PoseidonCount.
Open Scope num_scope.

Lemma map_ceval_ext {p} U (l : list (CNum p)) s s' :
  Forall (owned U) l -> (forall i, In i U -> s' i = s i) -> map (ceval s') l = map (ceval s) l.
Proof. intros H E. apply map_ext_Forall. eapply Forall_impl; [|exact H]. intros c Hc. now apply (ceval_ext_owned U). Qed.

(** A wp statement for all modes yields the three circuit claims. *)
Lemma wp_triple {p A} (U : list Index) (m : prog p A) (Dim : Prop) (Pre : (Index -> Num p) -> Prop) (PreS : Prop)
    (E : (Index -> Num p) -> A -> Prop)
    (V : (Index -> Num p) -> A -> Prop) (B : A -> Prop) :
  In I0 U ->
  (forall s s', (forall i, In i U -> s' i = s i) -> Pre s -> Pre s') ->
  (forall s, okS s (mkst U 0) -> wp Sound s (mkst U 0) m (fun _ r => E s r)) ->
  (forall s, okS s (mkst U 0) -> Dim -> Pre s -> wp Honest s (mkst U 0) m (fun _ r => V s r /\ E s r)) ->
  (forall s, okS s (mkst U 0) -> Dim -> PreS -> wp Setup s (mkst U 0) m (fun _ r => B r)) ->
  sound_for U m E /\ (Dim -> complete_for U m Pre (fun s r => V s r /\ E s r)) /\
  (Dim -> PreS -> synth_for U m (fun _ _ r => B r)).
Proof.
  intros H0 Hx H1 H2 H3. split; [|split].
  - now apply wp_sound_for.
  - intros D. apply wp_complete_for; auto.
  - intros D B'. apply wp_synth_for; auto. intros s HS. eapply wp_mono; [apply H3; auto|]. auto.
Qed.
Lemma good_valued {p} s S1 (c : CNum p) : good Honest s S1 c -> valued s c.
Proof. now intros [_ H]. Qed.
Lemma good_blank {p} s S1 (c : CNum p) : good Setup s S1 c -> blank c.
Proof. now intros [_ H]. Qed.

Section PrimeClaims.
Variable p : positive.
Hypothesis Hp : Prime p.
Set Default Proof Using "Hp".
Notation F := (Num p).
Add Field pcl_field : (num_field Hp) (morphism (@num_morph p), constants [num_cst], power_tac (@num_power p) [num_pow_cst]).

(* C21 *)
Lemma claim_C21_poseidon : forall (U : list Index) (P : PoseidonParams p) (ins : list (CNum p)),
  In I0 U -> Forall (owned U) ins ->
  sound_for U (c_poseidon P ins) (fun s r => poseidon P (map (ceval s) ins) = Ok (ceval s r)) /\
  (pp_ok P /\ (0 < length ins <= ppt P)%nat -> complete_for U (c_poseidon P ins) (fun s => Forall (valued s) ins)
     (fun s r => valued s r /\ poseidon P (map (ceval s) ins) = Ok (ceval s r))) /\
  (pp_ok P /\ (0 < length ins <= ppt P)%nat -> Forall blank ins ->
     synth_for U (c_poseidon P ins) (fun _ _ r => blank r)).
Proof.
  intros U P ins H0 Ho. apply wp_triple; auto.
  - intros s s' E. apply (Forall_valued_ext U); auto.
  - intros s HS. eapply wp_mono; [apply (wp_poseidon Hp); auto with claims; congruence|].
    intros S1 r _ [_ H]. apply H; discriminate.
  - intros s HS D V. eapply wp_mono; [apply (wp_poseidon Hp); auto with claims|].
    intros S1 r _ [G H]. split; [eapply good_valued; eauto|]. apply H; discriminate.
  - intros s HS D B. eapply wp_mono; [apply (wp_poseidon Hp); auto with claims|].
    intros S1 r _ [G H]. eapply good_blank; eauto.
Qed.

Lemma claim_C21_poseidon_panics : forall (P : PoseidonParams p) (ins : list (CNum p)) (vals : list (Num p)),
  (length ins = 0%nat \/ (ppt P < length ins)%nat -> c_poseidon P ins = PPanic) /\
  (length vals = 0%nat \/ (ppt P < length vals)%nat -> poseidon P vals = Panic) /\
  (pp_ok P -> (0 < length vals <= ppt P)%nat -> poseidon P vals <> Panic).
Proof.
  intros P ins vals. split; [|split].
  - intros H. unfold c_poseidon. destruct (Nat.leb_spec (length ins) (ppt P)); cbn [passert pbind]; auto.
    destruct (Nat.ltb_spec 0 (length ins)); cbn [passert pbind]; auto. lia.
  - intros H. unfold poseidon. destruct (Nat.leb_spec (length vals) (ppt P)); cbn [rassert rbind]; auto.
    destruct (Nat.ltb_spec 0 (length vals)); cbn [rassert rbind]; auto. lia.
  - intros H1 H2. destruct (poseidon_ok P vals H1 H2) as [r ->]. discriminate.
Qed.

(* C22 *)
Lemma claim_C22_poseidon_with_salt : forall (U : list Index) (P : PoseidonParams p) (ins : list (CNum p)) (salt : Num p),
  In I0 U -> Forall (owned U) ins ->
  (sound_for U (c_poseidon_with_salt P ins salt) (fun s r => poseidon_with_salt P (map (ceval s) ins) salt = Ok (ceval s r)) /\
  (pp_ok P /\ (0 < length ins < ppt P)%nat -> complete_for U (c_poseidon_with_salt P ins salt) (fun s => Forall (valued s) ins)
     (fun s r => valued s r /\ poseidon_with_salt P (map (ceval s) ins) salt = Ok (ceval s r))) /\
  (pp_ok P /\ (0 < length ins < ppt P)%nat -> Forall blank ins ->
     synth_for U (c_poseidon_with_salt P ins salt) (fun _ _ r => blank r))) /\
  (length ins = 0%nat \/ (ppt P <= length ins)%nat -> c_poseidon_with_salt P ins salt = PPanic /\
     forall vals : list (Num p), length vals = length ins -> poseidon_with_salt P vals salt = Panic).
Proof.
  intros U P ins salt H0 Ho. split; [apply wp_triple; auto|].
  - intros s s' E. apply (Forall_valued_ext U); auto.
  - intros s HS. eapply wp_mono; [apply (wp_poseidon_with_salt Hp); auto with claims; congruence|].
    intros S1 r _ [_ H]. apply H; discriminate.
  - intros s HS D V. eapply wp_mono; [apply (wp_poseidon_with_salt Hp); auto with claims|].
    intros S1 r _ [G H]. split; [eapply good_valued; eauto|]. apply H; discriminate.
  - intros s HS D B. eapply wp_mono; [apply (wp_poseidon_with_salt Hp); auto with claims|].
    intros S1 r _ [G H]. eapply good_blank; eauto.
  - intros H. split.
    + unfold c_poseidon_with_salt. destruct (Nat.ltb_spec 0 (length ins)); cbn [passert pbind]; auto.
      destruct (Nat.ltb_spec (length ins) (ppt P)); cbn [passert pbind]; auto. lia.
    + intros vals El. unfold poseidon_with_salt. rewrite El. destruct (Nat.ltb_spec 0 (length ins)); cbn [rassert rbind]; auto.
      destruct (Nat.ltb_spec (length ins) (ppt P)); cbn [rassert rbind]; auto. lia.
Qed.

(* C23 *)
Lemma claim_C23_zero_padding : forall (P : PoseidonParams p) (ins : list (Num p)) (n : nat),
  (0 < length ins)%nat -> (length ins + n <= ppt P)%nat ->
  poseidon P (ins ++ repeat n0 n) = poseidon P ins /\
  ((0 < n)%nat -> ins ++ repeat n0 n <> ins).
Proof.
  intros P ins n H1 H2. split.
  - unfold poseidon. rewrite app_length, repeat_length.
    rewrite !(proj2 (Nat.leb_le _ _)), !(proj2 (Nat.ltb_lt _ _)) by lia. cbn [rassert rbind].
    rewrite <- app_assoc, <- repeat_app. replace (n + (ppt P - (length ins + n)))%nat with (ppt P - length ins)%nat by lia.
    reflexivity.
  - intros Hn E. apply (f_equal (@length _)) in E. rewrite app_length, repeat_length in E. lia.
Qed.

(* C24 *)
Lemma claim_C24_merkle_proof : forall (U : list Index) (P : PoseidonParams p) (leaf : CNum p) (sib : list (CNum p)) (path : list (CBool p)),
  In I0 U -> owned U leaf -> Forall (owned U) sib -> Forall (owned U) path -> length path = length sib ->
  let g := c_poseidon_merkle_proof_root P leaf sib path in
  sound_for U g (fun s r => forall bs, ebits s path bs ->
     poseidon_merkle_proof_root P (ceval s leaf) (map (ceval s) sib) bs = Ok (ceval s r)) /\
  (pp_ok P /\ (2 <= ppt P)%nat ->
   complete_for U g (fun s => valued s leaf /\ Forall (valued s) sib /\ Forall (valued s) path /\ exists bs, ebits s path bs)
     (fun s r => valued s r /\ forall bs, ebits s path bs ->
       poseidon_merkle_proof_root P (ceval s leaf) (map (ceval s) sib) bs = Ok (ceval s r))) /\
  (pp_ok P /\ (2 <= ppt P)%nat -> blank leaf /\ Forall blank sib /\ Forall blank path /\
     Forall (fun c => forall v, as_const c = Some v -> isbit v) path -> synth_for U g (fun _ _ r => blank r)).
Proof.
  intros U P leaf sib path H0 Hl Hs Hpa El g. unfold g, c_poseidon_merkle_proof_root, poseidon_merkle_proof_root. unfold CBool in *.
  assert (F1 : map fst (combine path sib) = path).
  { clear -El. revert sib El. induction path as [|c path IH]; intros [|d sib] E; cbn in *; try lia; auto. f_equal; auto. }
  assert (F2 : map snd (combine path sib) = sib).
  { clear -El. revert sib El. induction path as [|c path IH]; intros [|d sib] E; cbn in *; try lia; auto. f_equal; auto. }
  assert (K : forall (T : CNum p -> Prop), Forall T path -> Forall T sib ->
     Forall (fun bs => T (fst bs) /\ T (snd bs)) (combine path sib)).
  { intros T H1 H2. apply Forall_forall. intros [a b] Hin. rewrite Forall_forall in H1, H2.
    split; [apply H1; eapply in_combine_l|apply H2; eapply in_combine_r]; eauto. }
  assert (K1 : forall (T : CNum p -> Prop), Forall T path -> Forall (fun bs => T (fst bs)) (combine path sib)).
  { intros T H1. apply Forall_forall. intros [a b] Hin. rewrite Forall_forall in H1. apply H1. eapply in_combine_l; eauto. }
  apply wp_triple; auto.
  - intros s s' E [H1 [H2 [H3 [bs H4]]]]. split; [eapply valued_ext; eauto|]. split; [eapply Forall_valued_ext; eauto|].
    split; [eapply Forall_valued_ext; eauto|]. exists bs. eapply ebits_ext; eauto.
  - intros s HS. eapply wp_mono; [apply (wp_merkle_proof Hp); auto with claims; congruence|].
    intros S1 r _ [_ H]. rewrite F1, F2 in H. apply H; discriminate.
  - intros s HS D [H1 [H2 [H3 [bs H4]]]]. eapply wp_mono.
    + apply (wp_merkle_proof Hp); auto with claims; try congruence. intros _. apply (K1 (fun c => isbit (ceval s c))).
      clear -H4. induction H4 as [|c b path bs E H IH]; constructor; auto. rewrite E. destruct b; [now right|now left].
    + intros S1 r _ [G H]. rewrite F1, F2 in H. split; [eapply good_valued; eauto|]. apply H; discriminate.
  - intros s HS D [H1 [H2 [H3 H4]]]. eapply wp_mono.
    + apply (wp_merkle_proof Hp); auto with claims; try congruence.
      intros _. exact (K1 (fun c => forall v, as_const c = Some v -> isbit v) H4).
    + intros S1 r _ [G H]. eapply good_blank; eauto.
Qed.

(* C25 *)
(** A prover who may choose sibling and path can put any pair below the root. *)
Lemma claim_C25_merkle_forge : forall (U : list Index) (P : PoseidonParams p) (leaf sib path : CNum p) (lv a b : Num p),
  In I0 U -> owned U leaf -> owned U sib -> owned U path -> as_const path = None ->
  pp_ok P -> (2 <= ppt P)%nat -> a + b <> lv + lv ->
  complete_for U (c_poseidon_merkle_proof_root P leaf [sib] [path])
    (fun s => valued s leaf /\ valued s sib /\ valued s path /\
       ceval s leaf = lv /\ ceval s sib = a + b - lv /\ ceval s path = fdiv (a - lv) (a + b - lv - lv))
    (fun s r => poseidon P [a; b] = Ok (ceval s r)).
Proof.
  intros U P leaf sib path lv a b H0 O1 O2 O3 N HP Ht Hab. apply wp_complete_for; auto.
  - intros s s' E [V1 [V2 [V3 [E1 [E2 E3]]]]]. rewrite !(ceval_ext_owned U _ s s') by auto.
    eauto 10 using valued_ext.
  - intros s HS [V1 [V2 [V3 [E1 [E2 E3]]]]]. unfold c_poseidon_merkle_proof_root. cbn [combine].
    eapply wp_mono; [apply (wp_merkle_free Hp); auto with claims|].
    intros S1 r _ [_ H]. specialize (H ltac:(discriminate)). cbv zeta in H. rewrite E1, E2, E3 in H.
    assert (Hd : a + b - lv - lv <> 0).
    { intros E. apply Hab. replace (a + b) with ((a + b - lv - lv) + (lv + lv)) by ring. rewrite E. ring. }
    replace (lv + (a - lv) / (a + b - lv - lv) * (a + b - lv - lv)) with a in H by (field; auto).
    replace (lv + (a + b - lv) - a) with b in H by ring. exact H.
Qed.

(* C26 *)
Lemma claim_C26_tree_root_native : forall (P : PoseidonParams p), pp_ok P -> (2 <= ppt P)%nat ->
  exists h : Num p -> Num p -> Num p, (forall a b, poseidon P [a; b] = Ok (h a b)) /\
  forall leaf : list (Num p), (0 < length leaf)%nat ->
    let d := bit_len (length leaf - 1) in
    poseidon_merkle_tree_root P leaf = Ok (node h leaf d 0) /\
    (length leaf <= 2 ^ d)%nat /\ (forall d', (length leaf <= 2 ^ d')%nat -> (d <= d')%nat) /\
    forall i, (i < 2 ^ d)%nat ->
      poseidon_merkle_proof_root P (nth i leaf n0)
        (map (fun j => node h leaf j (Nat.lxor (i / 2 ^ j) 1)) (seq 0 d)) (map (Nat.testbit i) (seq 0 d))
      = poseidon_merkle_tree_root P leaf.
Proof.
  intros P HP Ht. exists (fun a b => match poseidon P [a; b] with Ok r => r | Panic => n0 end).
  assert (Hh : forall a b, poseidon P [a; b] = Ok (match poseidon P [a; b] with Ok r => r | Panic => n0 end)).
  { intros a b. destruct (poseidon_ok P [a; b] HP) as [r ->]; [cbn; lia|reflexivity]. }
  split; [exact Hh|]. intros leaf Hl d. rewrite (tree_root_ok P _ leaf Hh Hl). fold d.
  split; [reflexivity|]. split; [now apply bit_len_bound|]. split.
  - intros d' Hd. unfold d, bit_len. destruct (length leaf - 1)%nat as [|m] eqn:Em; [lia|].
    apply Nat.log2_lt_pow2; lia.
  - intros i Hi. unfold poseidon_merkle_proof_root.
    pose proof (proof_root_node P _ leaf Hh d 0 i) as K. cbn [node] in K. rewrite (Nat.div_small i) in K by auto.
    cbn [plus] in K. rewrite <- K. f_equal. clear. generalize (seq 0 d). intros l.
    induction l; cbn [map combine]; f_equal; auto.
Qed.

Lemma claim_C26_tree_root_circuit : forall (U : list Index) (P : PoseidonParams p) (leaf : list (CNum p)),
  In I0 U -> Forall (owned U) leaf ->
  let g := c_poseidon_merkle_tree_root P leaf in
  sound_for U g (fun s r => poseidon_merkle_tree_root P (map (ceval s) leaf) = Ok (ceval s r)) /\
  (pp_ok P /\ (2 <= ppt P)%nat /\ (0 < length leaf)%nat -> complete_for U g (fun s => Forall (valued s) leaf)
     (fun s r => valued s r /\ poseidon_merkle_tree_root P (map (ceval s) leaf) = Ok (ceval s r))) /\
  (pp_ok P /\ (2 <= ppt P)%nat /\ (0 < length leaf)%nat -> Forall blank leaf -> synth_for U g (fun _ _ r => blank r)).
Proof.
  intros U P leaf H0 Ho g. unfold g. apply wp_triple; auto.
  - intros s s' E. apply (Forall_valued_ext U); auto.
  - intros s HS. eapply wp_mono; [apply (wp_tree_root Hp); auto with claims; congruence|].
    intros S1 r _ [_ H]. apply H; discriminate.
  - intros s HS D V. eapply wp_mono; [apply (wp_tree_root Hp); auto with claims|].
    intros S1 r _ [G H]. split; [eapply good_valued; eauto|]. apply H; discriminate.
  - intros s HS D B. eapply wp_mono; [apply (wp_tree_root Hp); auto with claims|].
    intros S1 r _ [G H]. eapply good_blank; eauto.
Qed.

(* C61 *)
Lemma claim_C61_poseidon_count : forall (U : list Index) (P : PoseidonParams p) (ins : list (CNum p)),
  In I0 U -> Forall (owned U) ins -> Forall blank ins -> Forall (fun c => as_const c = None) ins ->
  pp_ok P -> Forall (fun row => nth 0 row n0 <> n0) (ppm P) -> (2 <= ppf P)%nat -> (0 < length ins <= ppt P)%nat ->
  synth_for U (c_poseidon P ins) (fun k n r => as_const r = None /\
     k = (3 * (length ins + ppt P * (ppf P - 1) + ppp P))%nat /\ n = (3 * (length ins + ppt P * (ppf P - 1) + ppp P))%nat).
Proof.
  intros U P ins H0 Ho Hb Hn HP Hc Hf Hl. apply wp_synth_for; auto. intros s HS.
  eapply wp_mono; [apply (wp_poseidon_cnt Hp); auto with claims|].
  intros S1 r _ [_ [N [B1 B2]]] k Hk. split; [eapply newdep_nonconst; eauto|]. unfold poseidon_cost in *. cbn [su sn] in *. lia.
Qed.

Lemma claim_C61_merkle_count : forall (U : list Index) (P : PoseidonParams p) (leaf : CNum p) (sib : list (CNum p)) (path : list (CBool p)),
  In I0 U -> owned U leaf -> Forall (owned U) sib -> Forall (owned U) path -> length path = length sib ->
  blank leaf -> Forall blank sib -> Forall blank path -> Forall (fun c => as_const c = None) path ->
  (forall c sib', sib = c :: sib' -> as_const (csub c leaf) = None) ->
  pp_ok P -> Forall (fun row => nth 0 row n0 <> n0) (ppm P) -> (2 <= ppf P)%nat -> (2 <= ppt P)%nat ->
  synth_for U (c_poseidon_merkle_proof_root P leaf sib path) (fun k n _ =>
     k = (length sib * (1 + 3 * (2 + ppt P * (ppf P - 1) + ppp P)))%nat /\
     n = (length sib * (1 + 3 * (2 + ppt P * (ppf P - 1) + ppp P)))%nat).
Proof.
  unfold CBool. intros U P leaf sib path H0 O1 O2 O3 El B1 B2 B3 N Hd HP Hc Hf Ht. apply wp_synth_for; auto. intros s HS.
  unfold c_poseidon_merkle_proof_root. eapply wp_mono.
  - apply (wp_merkle_cnt Hp); auto with claims.
    + assert (G2 : Forall (good Setup s (mkst U 0)) sib) by auto with claims.
      assert (G3 : Forall (good Setup s (mkst U 0)) path) by auto with claims.
      apply Forall_forall. intros [a b] Hin. rewrite Forall_forall in G2, G3, N. cbn [fst snd].
      pose proof (in_combine_l _ _ _ _ Hin). pose proof (in_combine_r _ _ _ _ Hin).
      split; [auto|]. split; [auto|]. apply N; auto.
    + destruct path as [|b path], sib as [|c sib]; cbn [combine]; auto. cbn [snd]. eapply Hd; eauto.
  - intros S1 r _ [_ [C1 C2]] k Hk. rewrite combine_length in C1, C2. unfold CBool in *. rewrite El, Nat.min_id in C1, C2.
    unfold poseidon_cost in *. cbn [su sn] in *. lia.
Qed.

(** The figures of README.md: Poseidon (4, 8, 54) on three inputs, a Merkle
    proof of 32 levels over Poseidon (3, 8, 53). *)
Lemma claim_C61_readme_hashes : forall (U : list Index) (P4 P3 : PoseidonParams p) (ins : list (CNum p))
    (leaf : CNum p) (sib : list (CNum p)) (path : list (CBool p)),
  In I0 U -> Forall (owned U) ins -> Forall blank ins -> Forall (fun c => as_const c = None) ins -> length ins = 3%nat ->
  owned U leaf -> Forall (owned U) sib -> Forall (owned U) path -> length path = 32%nat -> length sib = 32%nat ->
  blank leaf -> Forall blank sib -> Forall blank path -> Forall (fun c => as_const c = None) path ->
  as_const (csub (nth 0 sib czero) leaf) = None ->
  pp_ok P4 -> (ppt P4, ppf P4, ppp P4) = (4, 8, 54)%nat -> Forall (fun row => nth 0 row n0 <> n0) (ppm P4) ->
  pp_ok P3 -> (ppt P3, ppf P3, ppp P3) = (3, 8, 53)%nat -> Forall (fun row => nth 0 row n0 <> n0) (ppm P3) ->
  synth_for U (c_poseidon P4 ins) (fun _ n _ => n = 255%nat) /\
  synth_for U (c_poseidon_merkle_proof_root P3 leaf sib path) (fun _ n _ => Z.of_nat n = 7328%Z).
Proof.
  intros U P4 P3 ins leaf sib path H0 O1 B1 N1 L1 O2 O3 O4 L2 L3 B2 B3 B4 N2 N3 HP4 E4 C4 HP3 E3 C3.
  injection E4 as E4a E4b E4c. injection E3 as E3a E3b E3c. split.
  - intros tr o He. destruct (claim_C61_poseidon_count U P4 ins H0 O1 B1 N1 HP4 C4 ltac:(lia) ltac:(lia) tr o He) as [a [E [_ [_ K]]]].
    exists a. split; auto. rewrite K, L1, E4a, E4b, E4c. reflexivity.
  - intros tr o He. destruct (claim_C61_merkle_count U P3 leaf sib path H0 O2 O3 O4 ltac:(congruence) B2 B3 B4 N2) with (tr := tr) (o := o) as [a [E [_ K]]]; auto; try lia.
    + intros c sib' ->. exact N3.
    + exists a. split; auto. rewrite K, L3, E3a, E3b, E3c. reflexivity.
Qed.

(** Bit decomposition. *)
Lemma claim_C61_bits_count : forall (U : list Index) (x : CNum p) (n : nat), In I0 U -> owned U x -> blank x -> as_const x = None ->
  ((1 <= n <= num_bits p)%nat -> synth_for U (c_into_bits_le x n) (fun k m _ => k = (n - 1)%nat /\ m = n)) /\
  ((4 <= num_bits p)%nat -> synth_for U (c_into_bits_le_strict x) (fun _ m _ =>
     m = (num_bits p + (Nat.div2 (num_bits p) + (Nat.div2 (num_bits p) + num_bits p mod 2) + 1) + 1)%nat)).
Proof.
  intros U x n H0 Ho Hb Hn. split.
  - intros H. destruct (claim_C15_into_bits_complete p Hp U x n H0 Ho H) as [_ K]. intros tr o He.
    destruct (K Hb) with (tr := tr) (o := o) as [a [E [_ [_ [K1 _]]]]]; auto; [congruence|]. exists a. auto.
  - intros H. destruct (claim_C16_into_bits_strict p Hp U x H0 Ho H) as [_ [_ K]]. intros tr o He.
    destruct (K Hb tr o He) as [a [E [_ [_ K1]]]]. exists a. auto.
Qed.
End PrimeClaims.
Unset Default Proof Using.

(** Concrete cases: modulus 37, t = 3, f = 2, p = 1. *)
Definition P37 : PoseidonParams 37 :=
  mkPP (map num [5; 11; 23]%Z) (map (map num) [[2; 3; 5]; [7; 11; 13]; [17; 19; 29]]%Z) 3 2 1.
Definition y37 : CNum 37 := cvar (Some (num 9)) (Aux 1).
Definition b37 : CNum 37 := cvar (Some n1) (Aux 2).
Lemma P37_ok : pp_ok P37.
Proof. repeat split; repeat constructor. Qed.
Definition hval (r : res (Num 37)) : Z := match r with Ok x => nval x | Panic => (-1)%Z end.

(* C25 *)
(** The gadget does not force the path to be boolean. *)
Lemma claim_C25_merkle_binds_leaf_refuted : exists (p : positive) (U : list Index) (P : PoseidonParams p) (leaf sib path : CNum p),
  Prime p /\ In I0 U /\ owned U leaf /\ owned U sib /\ owned U path /\ pp_ok P /\ (2 <= ppt P)%nat /\
  ~ sound_for U (c_poseidon_merkle_proof_root P leaf [sib] [path]) (fun s r => isbit (ceval s path)) /\
  ~ sound_for U (c_poseidon_merkle_proof_root P leaf [sib] [path]) (fun s r =>
      exists b, poseidon_merkle_proof_root P (ceval s leaf) [ceval s sib] [b] = Ok (ceval s r)).
Proof.
  assert (P37p : Prime 37) by (apply trial_prime; vm_compute; reflexivity).
  set (path := cvar (Some (num 5)) (Aux 2) : CNum 37).
  exists 37%positive, [I0; Aux 0; Aux 1; Aux 2], P37, (cvar (Some (num 22)) (Aux 0)), y37, path.
  assert (K : demo [num 22; num 9; num 5] (c_poseidon_merkle_proof_root P37 (cvar (Some (num 22)) (Aux 0)) [y37] [path])
     (fun s r => ~ isbit (ceval s path) /\ forall b, poseidon_merkle_proof_root P37 (ceval s (cvar (Some (num 22)) (Aux 0))) [ceval s y37] [b] <> Ok (ceval s r))).
  { apply (demob_ok _ _ _ (fun s r => negb (neqb (ceval s path) n0) && negb (neqb (ceval s path) n1) &&
      negb (Z.eqb (hval (poseidon_merkle_proof_root P37 (ceval s (cvar (Some (num 22)) (Aux 0))) [ceval s y37] [true])) (nval (ceval s r))) &&
      negb (Z.eqb (hval (poseidon_merkle_proof_root P37 (ceval s (cvar (Some (num 22)) (Aux 0))) [ceval s y37] [false])) (nval (ceval s r))))).
    - intros s r. rewrite !Bool.andb_true_iff, !Bool.negb_true_iff. intros [[[H1 H2] H3] H4]. split.
      + apply neqb_neq in H1, H2. intros [H|H]; auto.
      + intros b Hb. destruct b; rewrite Hb in *; cbn [hval] in *; rewrite Z.eqb_refl in *; discriminate.
    - vm_compute. reflexivity. }
  destruct K as [tr [r [s [H1 [H2 [H3 [H4 [H5 [H6 H7]]]]]]]]].
  assert (Hv : forall v i, In i [I0; Aux 0; Aux 1; Aux 2] -> owned [I0; Aux 0; Aux 1; Aux 2] (@cvar 37 v i)).
  { intros v i Hi. apply (wf_var (prime_gt1 P37p) (mkst [I0; Aux 0; Aux 1; Aux 2] 0)); exact Hi. }
  split; [exact P37p|]. split; [now left|]. split; [apply Hv; cbn; auto|]. split; [apply Hv; cbn; auto|].
  split; [apply Hv; cbn; auto|]. split; [exact P37_ok|]. split; [cbn; lia|]. split.
  - intros Hs. apply H6. eapply Hs; eauto.
  - intros Hs. destruct (Hs s tr r H2 H1 H5) as [b Hb]. eapply H7; eauto.
Qed.

Ltac demo_num l := apply (demob_ok _ _ _ (fun s r => neqb (ceval s r) l)); [intros s r; apply neqb_eq|vm_compute; reflexivity].
Lemma case_C21_poseidon : pp_ok P37 /\ hval (poseidon P37 [num 22; num 9]) = 4%Z /\
  demo [num 22; num 9] (c_poseidon P37 [x37; y37]) (fun s r => ceval s r = num 4).
Proof. split; [exact P37_ok|]. split; [vm_compute; reflexivity|]. demo_num (num 4 : Num 37). Qed.
Lemma case_C21_poseidon_panics : poseidon P37 [] = Panic /\ poseidon P37 [n1; n1; n1; n1] = Panic /\ c_poseidon P37 [] = PPanic.
Proof. repeat split. Qed.
Lemma case_C22_poseidon_with_salt : hval (poseidon_with_salt P37 [num 22; num 9] (num 3)) = 13%Z /\
  demo [num 22; num 9] (c_poseidon_with_salt P37 [x37; y37] (num 3)) (fun s r => ceval s r = num 13).
Proof. split; [vm_compute; reflexivity|]. demo_num (num 13 : Num 37). Qed.
Lemma case_C23_zero_padding : hval (poseidon P37 [num 22]) = hval (poseidon P37 [num 22; n0; n0]) /\
  hval (poseidon P37 [num 22]) <> hval (poseidon P37 [num 22; n1]).
Proof. split; vm_compute; [reflexivity|discriminate]. Qed.
Lemma case_C24_merkle_proof : hval (poseidon_merkle_proof_root P37 (num 22) [num 9] [true]) = hval (poseidon P37 [num 9; num 22]) /\
  demo [num 22; num 9; n1] (c_poseidon_merkle_proof_root P37 x37 [y37] [b37])
    (fun s r => Z.eqb (hval (poseidon P37 [num 9; num 22])) (nval (ceval s r)) = true).
Proof.
  split; [vm_compute; reflexivity|].
  apply (demob_ok _ _ _ (fun s r => Z.eqb (hval (poseidon P37 [num 9; num 22])) (nval (ceval s r)))); [auto|vm_compute; reflexivity].
Qed.
Lemma case_C25_merkle_forge : num 3 + num 5 <> num 22 + num 22 :> Num 37 /\
  hval (poseidon P37 [num 3; num 5]) <> hval (poseidon P37 [num 22; num 9]).
Proof. split; [apply neqb_neq; vm_compute; reflexivity|vm_compute; discriminate]. Qed.
Lemma case_C26_tree_root_native : bit_len (3 - 1) = 2%nat /\
  hval (poseidon_merkle_tree_root P37 [num 22; num 9; num 5]) =
  hval (a <-? poseidon P37 [num 22; num 9] ; b <-? poseidon P37 [num 5; n0] ; poseidon P37 [a; b]) /\
  hval (poseidon_merkle_tree_root P37 [num 22; num 9; num 5]) <> (-1)%Z.
Proof. split; [reflexivity|]. split; vm_compute; [reflexivity|discriminate]. Qed.
Lemma case_C26_tree_root_circuit :
  demo [num 22; num 9; n1] (c_poseidon_merkle_tree_root P37 [x37; y37; b37])
    (fun s r => Z.eqb (hval (poseidon_merkle_tree_root P37 [num 22; num 9; n1])) (nval (ceval s r)) = true).
Proof.
  apply (demob_ok _ _ _ (fun s r => Z.eqb (hval (poseidon_merkle_tree_root P37 [num 22; num 9; n1])) (nval (ceval s r)))); [auto|vm_compute; reflexivity].
Qed.
Lemma case_C61_poseidon_count : ncons (fst (run 2 (c_poseidon P37 [x37; y37]))) = 18%nat /\
  Forall (fun row => nth 0 row n0 <> n0) (ppm P37).
Proof. split; [vm_compute; reflexivity|]. repeat constructor; apply neqb_neq; vm_compute; reflexivity. Qed.
Lemma case_C61_merkle_count : ncons (fst (run 3 (c_poseidon_merkle_proof_root P37 x37 [y37; y37] [b37; b37]))) = 38%nat.
Proof. vm_compute. reflexivity. Qed.
Lemma case_C61_bits_count : ncons (fst (run 1 (c_into_bits_le_strict x37))) = 14%nat.
Proof. vm_compute. reflexivity. Qed.
