(** Affine zero, and what a Merkle proof says when its path signals are not
    known to be Boolean. *)

From Verif Require Export ParamClaims CodecClaims MiscClaims.
Open Scope num_scope.

(** ** Merkle proofs along signals that need not be Boolean *)
Section Free.
Context {p : positive} (Hp : Prime p).
Notation F := (Num p).
Add Field free_field : (num_field Hp) (morphism (@num_morph p), constants [num_cst], power_tac (@num_power p) [num_pow_cst]).

(** The root with numbers in place of bits: at each level the two numbers hashed
    lie on the line through (cur, sib) and (sib, cur). *)
Fixpoint line_root (P : PoseidonParams p) (cur : F) (proof : list (F * F)) : res F :=
  match proof with
  | [] => Ok cur
  | (b, s) :: proof =>
      let x := cur + b * (s - cur) in
      r <-? poseidon P [x; cur + s - x] ; line_root P r proof
  end.
(** On bits it is the native root. *)
Lemma line_root_bits P : forall bs sv cur, length bs = length sv ->
  line_root P cur (combine (map nbool bs) sv) = merkle_proof_root P cur (combine bs sv).
Proof.
  induction bs as [|b bs IH]; intros [|s sv] cur L; cbn in L; try lia; auto. cbn [map combine line_root merkle_proof_root].
  assert (E : [cur + nbool b * (s - cur); cur + s - (cur + nbool b * (s - cur))] = if b then [s; cur] else [cur; s]).
  { destruct b; unfold nbool; f_equal; try (f_equal); ring. }
  cbv zeta. rewrite E. destruct (poseidon P _); cbn [rbind]; auto.
Qed.

Lemma wp_merkle_line md s P : forall proof S0 root, okS s S0 -> good md s S0 root ->
  Forall (fun bs => good md s S0 (fst bs) /\ good md s S0 (snd bs)) proof ->
  Forall (fun bs => nonconst (fst bs)) proof ->
  (md <> Sound -> pp_ok P /\ (2 <= ppt P)%nat) ->
  wp md s S0 (c_merkle_proof_root P root proof) (fun S1 r => good md s S1 r /\
    (md <> Setup -> line_root P (ceval s root) (map (fun bs => (ceval s (fst bs), ceval s (snd bs))) proof) = Ok (ceval s r))).
Proof.
  induction proof as [|[b c] proof IH]; intros S0 root HS Gr Gp Hn Hd; cbn [c_merkle_proof_root].
  - apply wp_ret. split; auto.
  - inversion Gp as [|? ? [Gb Gc] Gp']; subst. inversion Hn as [|? ? Nb Hn']; subst. cbn [fst snd] in *.
    eapply wp_use; [apply (PoseidonSpec.wp_switch_nc Hp); auto|]. intros S1 first I1 [Gf Ef].
    assert (Gp1 : Forall (fun bs => good md s S1 (fst bs) /\ good md s S1 (snd bs)) proof).
    { eapply Forall_impl; [|exact Gp']. cbn. intros x [X Y]. split; eapply good_incl; eauto. }
    lift_good I1. cbv zeta. eapply wp_use.
    { apply (wp_poseidon Hp md s S1 P [first; csub (cadd_cap root c) first]); auto with alw.
      intros Hm. destruct (Hd Hm). split; auto. cbn. lia. }
    intros S2 h I2 [Gh Eh].
    assert (Gp2 : Forall (fun bs => good md s S2 (fst bs) /\ good md s S2 (snd bs)) proof).
    { eapply Forall_impl; [|exact Gp1]. cbn. intros x [X Y]. split; eapply good_incl; eauto. }
    lift_good I2. eapply wp_mono; [apply IH; auto|].
    intros S3 r I3 [Gr3 Er]. split; auto. intros Hm. specialize (Eh Hm). cbn [map] in Eh.
    rewrite ceval_sub, ceval_add_cap, (Ef Hm) in Eh. cbn [map line_root fst snd]. cbv zeta. rewrite Eh. cbn [rbind]. auto.
Qed.

Lemma combine_eval s (path sib : list (CNum p)) :
  map (fun bs => (ceval s (fst bs), ceval s (snd bs))) (combine path sib) = combine (map (ceval s) path) (map (ceval s) sib).
Proof. revert sib. induction path as [|c path IH]; intros [|d sib]; cbn; auto. f_equal. auto. Qed.
Lemma combine_all {A} (T : A -> Prop) (path sib : list A) : Forall T path -> Forall T sib ->
  Forall (fun bs => T (fst bs) /\ T (snd bs)) (combine path sib).
Proof.
  intros H1 H2. apply Forall_forall. intros [a b] Hin. rewrite Forall_forall in H1, H2.
  split; [apply H1; eapply in_combine_l|apply H2; eapply in_combine_r]; eauto.
Qed.
Lemma combine_fst {A} (T : A -> Prop) (path sib : list A) : Forall T path -> Forall (fun bs => T (fst bs)) (combine path sib).
Proof. intros H1. apply Forall_forall. intros [a b] Hin. rewrite Forall_forall in H1. apply H1. eapply in_combine_l; eauto. Qed.
End Free.

Section PrimeClaims.
Context (p : positive) (Hp : Prime p).
Add Field more_field : (num_field Hp) (morphism (@num_morph p), constants [num_cst], power_tac (@num_power p) [num_pow_cst]).

(* C27 *)
(** The affine test for zero and equality of points (native/ecc.rs:154-156). *)
Lemma claim_C27_affine_zero : forall (d : Num p) (P Q : EPoint p), is_square (- (1) : Num p) -> ~ is_square d ->
  (e_is_zero P = true <-> P = mkE 0 1) /\ (e_eqb P Q = true <-> P = Q) /\
  (on_curve d (mkE 0 (- (1))) /\ e_is_zero (mkE (0 : Num p) (- (1))) = false).
Proof.
  intros d P Q Hm1 Hd. split; [apply e_eqb_eq|]. split; [apply e_eqb_eq|]. split.
  - unfold on_curve. cbn [ex ey]. ring.
  - unfold e_is_zero, e_eqb. cbn [ex ey e_zero]. rewrite (proj2 (neqb_neq _ _) (m1_neq_1 Hp d Hm1 Hd)). apply Bool.andb_false_r.
Qed.

(* C84 *)
(** What the gadget says for path signals that are not constants, and no more. *)
Lemma claim_C84_line : forall (U : list Index) (P : PoseidonParams p) (leaf : CNum p) (sib : list (CNum p)) (path : list (CBool p)),
  In I0 U -> owned U leaf -> Forall (owned U) sib -> Forall (owned U) path ->
  Forall (fun c : CNum p => as_const c = None) path ->
  let g := c_poseidon_merkle_proof_root P leaf sib path in
  let is_line := fun s r => line_root P (ceval s leaf) (combine (map (ceval s) path) (map (ceval s) sib)) = Ok (ceval s r) in
  sound_for U g is_line /\
  (pp_ok P -> (2 <= ppt P)%nat -> complete_for U g (fun s => valued s leaf /\ Forall (valued s) sib /\ Forall (valued s) path) is_line).
Proof.
  intros U P leaf sib path H0 Hl Hs Hpa Hn g is_line. unfold g, is_line, c_poseidon_merkle_proof_root. unfold CBool in *. split.
  - apply wp_sound_for; auto. intros s HS. eapply wp_mono.
    + apply (wp_merkle_line Hp); auto with claims; [|now apply combine_fst|congruence].
      apply (combine_all (good Sound s (mkst U 0))); auto with claims.
    + intros S1 r _ [_ H]. rewrite <- combine_eval. apply H. discriminate.
  - intros HP Ht. apply wp_complete_for; auto.
    + intros s s' E [V1 [V2 V3]]. split; [eapply valued_ext; eauto|]. split; eapply Forall_valued_ext; eauto.
    + intros s HS [V1 [V2 V3]]. eapply wp_mono.
      * apply (wp_merkle_line Hp); auto with claims; [|now apply combine_fst].
        apply (combine_all (good Honest s (mkst U 0))); auto with claims.
      * intros S1 r _ [_ H]. rewrite <- combine_eval. apply H. discriminate.
Qed.
(** From a true proof of depth at least one for [a], a proof of the same root for
    any other number that is not the midpoint of [a] and its sibling. *)
Lemma claim_C84_any_leaf : forall (U : list Index) (P : PoseidonParams p) (leaf : CNum p) (sib : list (CNum p)) (path : list (CBool p))
    (lv a b root : Num p) (sv : list (Num p)) (b0 : bool) (bs : list bool),
  In I0 U -> owned U leaf -> Forall (owned U) sib -> Forall (owned U) path ->
  Forall (fun c : CNum p => as_const c = None) path -> pp_ok P -> (2 <= ppt P)%nat ->
  length bs = length sv -> poseidon_merkle_proof_root P a (b :: sv) (b0 :: bs) = Ok root -> a + b <> lv + lv ->
  complete_for U (c_poseidon_merkle_proof_root P leaf sib path)
    (fun s => valued s leaf /\ Forall (valued s) sib /\ Forall (valued s) path /\ ceval s leaf = lv /\
       map (ceval s) sib = (a + b - lv) :: sv /\
       map (ceval s) path = fdiv ((if b0 then b else a) - lv) (a + b - lv - lv) :: map nbool bs)
    (fun s r => ceval s r = root).
Proof.
  intros U P leaf sib path lv a b root sv b0 bs H0 Hl Hs Hpa Hn HP Ht L R N.
  destruct (claim_C84_line U P leaf sib path H0 Hl Hs Hpa Hn) as [_ C]. specialize (C HP Ht).
  intros s0 tr o E0 [V1 [V2 [V3 [E1 [E2 E3]]]]] X. destruct (C s0 tr o E0 (conj V1 (conj V2 V3)) X) as [s [r [Ha [Hh [Hsat [-> Hr]]]]]].
  exists s, r. repeat (split; [assumption || reflexivity|]). revert Hr.
  rewrite (ceval_ext_owned U leaf s0 s), (map_ceval_ext U sib s0 s), (map_ceval_ext U path s0 s) by auto. rewrite E1, E2, E3.
  cbn [combine line_root]. cbv zeta.
  assert (Hd : a + b - lv - lv <> 0).
  { intros E. apply N. replace (a + b) with ((a + b - lv - lv) + (lv + lv)) by ring. rewrite E. ring. }
  set (x := if b0 then b else a).
  replace (lv + fdiv (x - lv) (a + b - lv - lv) * (a + b - lv - lv)) with x by (field; auto).
  replace (lv + (a + b - lv) - x) with (a + b - x) by ring.
  assert (E : [x; a + b - x] = if b0 then [b; a] else [a; b]) by (unfold x; destruct b0; f_equal; f_equal; ring).
  rewrite E. unfold poseidon_merkle_proof_root in R. cbn [combine merkle_proof_root] in R.
  destruct (poseidon P (if b0 then [b; a] else [a; b])) as [h|]; cbn [rbind] in *; [|discriminate].
  rewrite (line_root_bits Hp) by auto. congruence.
Qed.
(** So any number is proved to be in any tree of two or more leaves: next to leaf
    [i], unless it is the midpoint of leaf [i] and its neighbour. *)
Lemma claim_C84_any_tree : forall (U : list Index) (P : PoseidonParams p) (leaf : CNum p) (sib : list (CNum p)) (path : list (CBool p))
    (leaves : list (Num p)) (lv root : Num p) (i : nat),
  In I0 U -> owned U leaf -> Forall (owned U) sib -> Forall (owned U) path ->
  Forall (fun c : CNum p => as_const c = None) path -> length path = length sib -> pp_ok P -> (2 <= ppt P)%nat ->
  poseidon_merkle_tree_root P leaves = Ok root -> (0 < length sib)%nat -> (length leaves <= 2 ^ length sib < 2 * length leaves)%nat ->
  (i < 2 ^ length sib)%nat -> nth i leaves 0 + nth (Nat.lxor i 1) leaves 0 <> lv + lv ->
  exists sv pv : list (Num p), length sv = length sib /\ length pv = length sib /\
  complete_for U (c_poseidon_merkle_proof_root P leaf sib path)
    (fun s => valued s leaf /\ Forall (valued s) sib /\ Forall (valued s) path /\
       ceval s leaf = lv /\ map (ceval s) sib = sv /\ map (ceval s) path = pv)
    (fun s r => ceval s r = root).
Proof.
  intros U P leaf sib path leaves lv root i H0 Hl Hs Hpa Hn El HP Ht R Ld [L2 L3] Hi N.
  destruct (claim_C26_tree_root_native p Hp P HP Ht) as [h [Hh T]].
  destruct (T leaves ltac:(lia)) as [T1 [T2 [T3 T4]]]. set (d := bit_len (length leaves - 1)) in *.
  assert (Ed : d = length sib).
  { pose proof (T3 _ L2) as T5. destruct (Nat.eq_dec d (length sib)) as [|Nd]; auto. exfalso.
    assert (H : (2 ^ (d + 1) <= 2 ^ length sib)%nat) by (apply Nat.pow_le_mono_r; lia).
    rewrite Nat.pow_add_r in H. cbn [Nat.pow] in H. lia. }
  specialize (T4 i ltac:(now rewrite Ed)). rewrite R, Ed in T4. destruct (length sib) as [|n] eqn:En; [lia|].
  cbn [seq map] in T4. cbn [node] in T4. change (2 ^ 0)%nat with 1%nat in T4. rewrite Nat.div_1_r in T4.
  set (a := nth i leaves n0) in *. set (b := nth (Nat.lxor i 1) leaves n0) in *.
  set (sv := map (fun j => node h leaves j (Nat.lxor (i / 2 ^ j) 1)) (seq 1 n)) in *. set (bs := map (Nat.testbit i) (seq 1 n)) in *.
  assert (Lsv : length sv = n) by (unfold sv; now rewrite map_length, seq_length).
  assert (Lbs : length bs = n) by (unfold bs; now rewrite map_length, seq_length).
  exists ((a + b - lv) :: sv), (fdiv ((if Nat.testbit i 0 then b else a) - lv) (a + b - lv - lv) :: map nbool bs).
  split; [cbn; lia|]. split; [cbn; rewrite map_length; lia|].
  exact (claim_C84_any_leaf U P leaf sib path lv a b root sv (Nat.testbit i 0) bs H0 Hl Hs Hpa Hn HP Ht ltac:(congruence) T4 N).
Qed.
(** With [assert] called on every path signal first, the root is the native root
    along some bits, and the leaf is bound as in C66. *)
Lemma claim_C84_asserted : forall (U : list Index) (P : PoseidonParams p) (leaf : CNum p) (sib : list (CNum p)) (path : list (CBool p)),
  In I0 U -> owned U leaf -> Forall (owned U) sib -> Forall (owned U) path -> length path = length sib ->
  sound_for U (pmapM cb_assert path ;;; c_poseidon_merkle_proof_root P leaf sib path) (fun s r =>
    exists bs, length bs = length sib /\ ebits s path bs /\
      poseidon_merkle_proof_root P (ceval s leaf) (map (ceval s) sib) bs = Ok (ceval s r)).
Proof.
  intros U P leaf sib path H0 Hl Hs Hpa El. unfold CBool in *.
  assert (K : forall s S0 (l : list (CNum p)), okS s S0 -> Forall (good Sound s S0) l ->
     wp Sound s S0 (pmapM cb_assert l) (fun S1 _ => Forall (fun c => isbit (ceval s c)) l)).
  { intros s S0 l. revert S0. induction l as [|c l IH]; intros S0 HS G; cbn [pmapM].
    - apply wp_ret. constructor.
    - inversion G; subst. eapply wp_use; [apply (wp_assert_bit Hp); auto; discriminate|]. intros S1 u I1 [B1 _]. lift_good I1.
      eapply wp_use; [apply IH; auto|]. intros S2 us I2 B2. apply wp_ret. constructor; auto. apply B1. discriminate. }
  apply wp_sound_for; auto. intros s HS. eapply wp_use; [apply K; auto with claims|]. intros S1 us I1 B1.
  assert (F1 : map fst (combine path sib) = path).
  { clear -El. revert sib El. induction path as [|c path IH]; intros [|d sib] E; cbn in *; try lia; auto. f_equal; auto. }
  assert (F2 : map snd (combine path sib) = sib).
  { clear -El. revert sib El. induction path as [|c path IH]; intros [|d sib] E; cbn in *; try lia; auto. f_equal; auto. }
  unfold c_poseidon_merkle_proof_root. eapply wp_mono.
  - apply (wp_merkle_proof Hp Sound s P); try congruence.
    + split; [apply I1, H0|apply HS].
    + eapply good_incl; [|exact I1]. auto with claims.
    + apply combine_all; (eapply Forall_impl; [intros c G; eapply good_incl; [exact G|exact I1]|]); auto with claims.
  - intros S2 r _ [_ H]. unfold CBool in H. rewrite F1, F2 in H.
    assert (B : exists bs, ebits s path bs).
    { clear -B1. induction B1 as [|c l [E|E] B IH]; [exists []; constructor|..]; destruct IH as [bs Hb]; [exists (false :: bs)|exists (true :: bs)]; constructor; auto. }
    destruct B as [bs Hb]. exists bs. split; [rewrite <- El; clear -Hb; induction Hb; cbn; auto|]. split; auto. apply H; auto. discriminate.
Qed.
End PrimeClaims.

(** For the library's parameters: any number, any tree. *)
Lemma claim_C84_library : exists P : @PoseidonParams bn_r, pp_new 64 true 3 8 53 = Ok (Some P) /\
  forall (U : list Index) (leaf : CNum bn_r) (sib : list (CNum bn_r)) (path : list (CBool bn_r)) (leaves : list (Num bn_r)) (lv root : Num bn_r) (i : nat),
  In I0 U -> owned U leaf -> Forall (owned U) sib -> Forall (owned U) path ->
  Forall (fun c : CNum bn_r => as_const c = None) path -> length path = length sib ->
  poseidon_merkle_tree_root P leaves = Ok root -> (0 < length sib)%nat -> (length leaves <= 2 ^ length sib < 2 * length leaves)%nat ->
  (i < 2 ^ length sib)%nat -> nth i leaves 0 + nth (Nat.lxor i 1) leaves 0 <> lv + lv ->
  exists sv pv : list (Num bn_r), length sv = length sib /\ length pv = length sib /\
  complete_for U (c_poseidon_merkle_proof_root P leaf sib path)
    (fun s => valued s leaf /\ Forall (valued s) sib /\ Forall (valued s) path /\
       ceval s leaf = lv /\ map (ceval s) sib = sv /\ map (ceval s) path = pv)
    (fun s r => ceval s r = root).
Proof.
  destruct (lib_params 3 8 53) as [P [EP [HP [Ht _]]]]; [cbn; auto|]. exists P. split; [exact EP|].
  intros U leaf sib path leaves lv root i A1 A2 A3 A4 A5 A6 R A7 A8 A9 N.
  exact (claim_C84_any_tree bn_r bn_r_prime U P leaf sib path leaves lv root i A1 A2 A3 A4 A5 A6 HP ltac:(lia) R A7 A8 A9 N).
Qed.

(* C50 *)
(** [iterbit_be]: the bits of the repr from the top, as the ff crate's iterator gives them. *)
Lemma claim_C50_iterbit_be : forall (p : positive) (a : Num p),
  iterbit_be a = bititer_be (into_repr a) /\ length (iterbit_be a) = (64 * num_limbs p)%nat /\
  (forall i, (i < 64 * num_limbs p)%nat -> nth i (iterbit_be a) false = Z.testbit (nval a) (Z.of_nat (64 * num_limbs p - 1 - i))) /\
  fold_left (fun z b => 2 * z + Z.b2z b)%Z (iterbit_be a) 0%Z = nval a.
Proof.
  intros p a. destruct (claim_C50_iterators p a) as [_ [A [B C]]]. change (map _ _) with (iterbit_le a) in A, B, C.
  assert (L : length (iterbit_be a) = (64 * num_limbs p)%nat) by (unfold iterbit_be; now rewrite rev_length).
  split; [symmetry; exact A|]. split; [exact L|]. split.
  - intros i Hi. unfold iterbit_be. rewrite rev_nth by lia. rewrite B. unfold iterbit_le.
    rewrite (nth_indep _ false (Z.testbit (nval a) (Z.of_nat 0))) by (rewrite map_length, seq_length; lia).
    rewrite (map_nth (fun i => Z.testbit (nval a) (Z.of_nat i))), seq_nth by lia. do 2 f_equal. lia.
  - rewrite <- C. unfold iterbit_be. rewrite <- fold_left_rev_right, rev_involutive.
    clear. induction (iterbit_le a) as [|b l IH]; cbn [fold_right]; [reflexivity|]. rewrite IH. ring.
Qed.
(* C57 *)
(** A point: x, then y. *)
Lemma claim_C57_point : forall p (x y : CNum p),
  sized t_point (x, (y, tt)) /\ leaves t_point (x, (y, tt)) = [x; y] /\ tsize t_point = 2%nat /\
  (forall u v : Num p, vleaves t_point (u, (v, tt)) = [u; v]) /\
  (forall U tr, exec U (s_inputize t_point (x, (y, tt))) tr (Some tt) <-> exec U (piter cinputize [x; y]) tr (Some tt)).
Proof.
  intros p x y. split; [cbn; auto|]. split; [reflexivity|]. split; [reflexivity|]. split; [reflexivity|].
  intros U tr. destruct (claim_C56_linearize p t_point (x, (y, tt))) as [E A]. rewrite E in A.
  destruct (A U tr) as [A1 [A2 _]]. split; intros He; [exact (A1 _ He)|]. destruct (A2 _ He) as [[] [X _]]. exact X.
Qed.

(** ** Cases *)
Lemma case_C50_iterbit_be : length (iterbit_be (num 5 : Num 101)) = 64%nat /\ skipn 60 (iterbit_be (num 5 : Num 101)) = [false; true; false; true].
Proof. split; vm_compute; reflexivity. Qed.
Lemma case_C57_point : vleaves (p := 73) t_point (num 3, (num 4, tt)) = [num 3; num 4].
Proof. reflexivity. Qed.
(** The points (0, 1) and (0, -1) in the field with 37 elements. *)
Lemma case_C27_affine_zero : is_square (- (1) : Num 37) /\ ~ is_square (num 2 : Num 37) /\
  e_is_zero (mkE (0 : Num 37) 1) = true /\ e_is_zero (mkE (0 : Num 37) (- (1))) = false.
Proof.
  split; [exists (num 6); apply neqb_eq; vm_compute; reflexivity|]. split; [|split; vm_compute; reflexivity].
  intros [x Hx]. assert (A : forallb (fun z => negb (neqb (num z * num z : Num 37) (num 2))) (map Z.of_nat (seq 0 37)) = true) by (vm_compute; reflexivity).
  rewrite forallb_forall in A. specialize (A (nval x)). rewrite num_nval in A. rewrite Bool.negb_true_iff, neqb_neq in A. apply A; auto.
  pose proof (nval_range x). apply in_map_iff. exists (Z.to_nat (nval x)). split; [lia|]. apply in_seq. lia.
Qed.
(** The number 3 is not in the tree of 22, 9 and 5, and has a proof of depth two. *)
Lemma case_C84_any_tree : let lv := num 3 in let a := num 22 in let b := num 9 : Num 37 in let s1 := num (hval (poseidon P37 [num 5; num 0])) in
  let v := fun x i => cvar (Some x) (Aux i) : CNum 37 in
  let x0 := fdiv (a - lv) (a + b - lv - lv) in ~ In lv [a; b; num 5; num 0] /\ a + b <> lv + lv /\ ~ isbit x0 /\
  demo [lv; a + b - lv; s1; x0; num 0]
    (c_poseidon_merkle_proof_root P37 (v lv 0%nat) [v (a + b - lv) 1%nat; v s1 2%nat] [v x0 3%nat; v (num 0) 4%nat])
    (fun s r => poseidon_merkle_tree_root P37 [a; b; num 5] = Ok (ceval s r)).
Proof.
  cbv zeta. split; [|split; [|split]].
  - intros H. apply (in_map nval) in H. vm_compute in H. intuition discriminate.
  - apply neqb_neq. vm_compute. reflexivity.
  - intros [H|H]; apply neqb_eq in H; vm_compute in H; discriminate.
  - destruct (poseidon_merkle_tree_root P37 [num 22; num 9; num 5]) as [root|] eqn:E; [|vm_compute in E; discriminate].
    assert (Ez : Z.eqb (hval (poseidon_merkle_tree_root P37 [num 22; num 9; num 5])) (nval root) = true) by (rewrite E; cbn; apply Z.eqb_refl).
    apply (demob_ok _ _ _ (fun s r => Z.eqb (hval (poseidon_merkle_tree_root P37 [num 22; num 9; num 5])) (nval (ceval s r)))).
    + intros s r H. rewrite E in H. cbn [hval] in H. apply Z.eqb_eq in H. f_equal. rewrite <- (num_nval root), H. apply num_nval.
    + vm_compute. reflexivity.
Qed.
(** The true proof of 22 in that tree, its path signals asserted. *)
Lemma case_C84_asserted : let s1 := num (hval (poseidon P37 [num 5; num 0])) in let v := fun x i => cvar (Some x) (Aux i) : CNum 37 in
  let path := [v (num 0) 3%nat; v (num 0) 4%nat] in
  demo [num 22; num 9; s1; num 0; num 0]
    (pmapM cb_assert path ;;; c_poseidon_merkle_proof_root P37 (v (num 22) 0%nat) [v (num 9) 1%nat; v s1 2%nat] path)
    (fun s r => hval (poseidon_merkle_tree_root P37 [num 22; num 9; num 5]) = nval (ceval s r)).
Proof.
  cbv zeta. apply (demob_ok _ _ _ (fun s r => Z.eqb (hval (poseidon_merkle_tree_root P37 [num 22; num 9; num 5])) (nval (ceval s r)))).
  - intros s r. apply Z.eqb_eq.
  - vm_compute. reflexivity.
Qed.
