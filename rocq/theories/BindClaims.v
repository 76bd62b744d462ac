(** What a Merkle root and a signature bind, and native signatures in the circuit. *)

From Verif Require Export CEccClaims.
Open Scope num_scope.

(** ** Merkle trees *)
Section PrimeClaims.
Variable p : positive.
Hypothesis Hp : Prime p.
Notation F := (Num p).

(** Two different pairs with the same hash. *)
Definition collision {p} (P : @PoseidonParams p) : Prop := exists a b a' b' h : Num p,
  (a, b) <> (a', b') /\ poseidon P [a; b] = Ok h /\ poseidon P [a'; b'] = Ok h.

Lemma merkle_step (P : @PoseidonParams p) (b : bool) (x x' s s' h : F) :
  poseidon P (if b then [s; x] else [x; s]) = Ok h -> poseidon P (if b then [s'; x'] else [x'; s']) = Ok h ->
  (x = x' /\ s = s') \/ collision P.
Proof.
  intros E E'. destruct (num_eq_dec x x') as [Hx|Hx], (num_eq_dec s s') as [Hs|Hs]; auto; right;
  destruct b; do 5 eexists; (split; [|split; [exact E|exact E']]); congruence.
Qed.
Lemma merkle_bind (P : @PoseidonParams p) (path : list bool) : forall (sib sib' : list F) (x x' r : F),
  length sib = length path -> length sib' = length path ->
  merkle_proof_root P x (combine path sib) = Ok r -> merkle_proof_root P x' (combine path sib') = Ok r ->
  (x = x' /\ sib = sib') \/ collision P.
Proof.
  induction path as [|b path IH]; intros [|s sib] [|s' sib'] x x' r L L' E E'; try discriminate.
  - cbn in *. left. split; congruence.
  - cbn [combine merkle_proof_root] in E, E'. cbn in L, L'.
    destruct (poseidon P (if b then [s; x] else [x; s])) as [h|] eqn:H; [|discriminate].
    destruct (poseidon P (if b then [s'; x'] else [x'; s'])) as [h'|] eqn:H'; [|discriminate].
    cbn [rbind] in E, E'. destruct (IH sib sib' h h' r) as [[<- <-]|C]; auto; try lia.
    destruct (merkle_step P b x x' s s' h H H') as [[-> ->]|C]; auto.
Qed.
Lemma node_bind (P : @PoseidonParams p) (h : F -> F -> F) (leaf leaf' : list F) :
  (forall a b, poseidon P [a; b] = Ok (h a b)) -> forall j k, node h leaf j k = node h leaf' j k ->
  (forall i, (k * 2 ^ j <= i < (k + 1) * 2 ^ j)%nat -> nth i leaf 0 = nth i leaf' 0) \/ collision P.
Proof.
  intros Hh. induction j as [|j IH]; intros k E.
  - left. intros i Hi. cbn [Nat.pow] in Hi. replace i with k by lia. exact E.
  - cbn [node] in E. set (a := node h leaf j (2 * k)) in *. set (b := node h leaf j (2 * k + 1)) in *.
    set (a' := node h leaf' j (2 * k)) in *. set (b' := node h leaf' j (2 * k + 1)) in *.
    destruct (merkle_step P false a a' b b' (h a b)) as [[Ea Eb]|C]; [now rewrite Hh|now rewrite Hh, E| |now right].
    destruct (IH _ Ea) as [Ha|C]; [|now right]. destruct (IH _ Eb) as [Hb|C]; [|now right].
    left. intros i Hi. cbn [Nat.pow] in Hi. destruct (le_lt_dec ((2 * k + 1) * 2 ^ j) i) as [Hc|Hc]; [apply Hb|apply Ha]; lia.
Qed.

(* C66 *)
(** Two proofs for the same path and root. *)
Lemma claim_C66_proof_binding : forall (P : @PoseidonParams p) (path : list bool) (sib sib' : list (Num p)) (leaf leaf' root : Num p),
  length sib = length path -> length sib' = length path ->
  poseidon_merkle_proof_root P leaf sib path = Ok root -> poseidon_merkle_proof_root P leaf' sib' path = Ok root ->
  (leaf = leaf' /\ sib = sib') \/ collision P.
Proof using Hp. intros P path sib sib' leaf leaf' root L L'. apply merkle_bind; auto. Qed.
(** Two lists of leaves of the same length with the same root. *)
Lemma claim_C66_tree_binding : forall (P : @PoseidonParams p) (leaf leaf' : list (Num p)) (root : Num p),
  pp_ok P -> (2 <= ppt P)%nat -> length leaf = length leaf' ->
  poseidon_merkle_tree_root P leaf = Ok root -> poseidon_merkle_tree_root P leaf' = Ok root ->
  leaf = leaf' \/ collision P.
Proof using Hp.
  intros P leaf leaf' root HP Ht L E E'. destruct (claim_C26_tree_root_native p Hp P HP Ht) as [h [Hh T]].
  destruct (Nat.eq_dec (length leaf) 0) as [Z|Z].
  { left. destruct leaf, leaf'; try discriminate; auto. }
  destruct (T leaf ltac:(lia)) as [T1 [T2 _]]. destruct (T leaf' ltac:(lia)) as [T1' _].
  rewrite <- L in T1'. set (d := bit_len (length leaf - 1)) in *.
  destruct (node_bind P h leaf leaf' Hh d 0 ltac:(congruence)) as [H|C]; [|now right]. left.
  apply (nth_ext _ _ n0 n0 L). intros i Hi. apply H. lia.
Qed.
(** A proof for index [i] of a tree: the leaf is the one in the tree, zero beyond
    the given leaves. *)
Lemma claim_C66_membership : forall (P : @PoseidonParams p) (leaf : list (Num p)) (sib : list (Num p)) (v root : Num p) (i : nat),
  pp_ok P -> (2 <= ppt P)%nat -> poseidon_merkle_tree_root P leaf = Ok root -> (length leaf <= 2 ^ length sib < 2 * length leaf)%nat -> (i < 2 ^ length sib)%nat ->
  poseidon_merkle_proof_root P v sib (map (Nat.testbit i) (seq 0 (length sib))) = Ok root ->
  v = nth i leaf 0 \/ collision P.
Proof using Hp.
  intros P leaf sib v root i HP Ht E [L2 L3] Hi H. destruct (claim_C26_tree_root_native p Hp P HP Ht) as [h [Hh T]].
  destruct (T leaf ltac:(lia)) as [T1 [T2 [T3 T4]]]. set (d := bit_len (length leaf - 1)) in *.
  assert (Ed : d = length sib).
  { pose proof (T3 _ L2) as T5. destruct (Nat.eq_dec d (length sib)) as [|N]; auto. exfalso.
    assert (2 ^ (d + 1) <= 2 ^ length sib)%nat by (apply Nat.pow_le_mono_r; lia).
    rewrite Nat.pow_add_r in H0. cbn [Nat.pow] in H0. lia. }
  specialize (T4 i ltac:(now rewrite Ed)). rewrite E, Ed in T4.
  assert (Lm : forall {A} (f : nat -> A), length (map f (seq 0 (length sib))) = length sib) by (intros; now rewrite map_length, seq_length).
  destruct (claim_C66_proof_binding P (map (Nat.testbit i) (seq 0 (length sib))) sib
     (map (fun j => node h leaf j (Nat.lxor (i / 2 ^ j) 1)) (seq 0 (length sib))) v (nth i leaf n0) root) as [[-> _]|C]; auto;
  now rewrite !Lm.
Qed.
(** The same in the circuit, for path signals that are the bits of [i]. *)
Lemma claim_C66_membership_circuit : forall (U : list Index) (P : @PoseidonParams p) (leaf : CNum p) (sib : list (CNum p)) (path : list (CBool p))
    (leaves : list (Num p)) (i : nat),
  In I0 U -> owned U leaf -> Forall (owned U) sib -> Forall (owned U) path -> length path = length sib ->
  pp_ok P -> (2 <= ppt P)%nat -> (length leaves <= 2 ^ length sib < 2 * length leaves)%nat -> (i < 2 ^ length sib)%nat ->
  sound_for U (c_poseidon_merkle_proof_root P leaf sib path) (fun s r =>
    ebits s path (map (Nat.testbit i) (seq 0 (length sib))) -> poseidon_merkle_tree_root P leaves = Ok (ceval s r) ->
    ceval s leaf = nth i leaves 0 \/ collision P).
Proof using Hp.
  intros U P leaf sib path leaves i H0 H1 H2 H3 El HP Ht L Hi.
  destruct (claim_C24_merkle_proof p Hp U P leaf sib path H0 H1 H2 H3 El) as [S _].
  intros s tr r E1 E2 E3 Hb Hr. pose proof (S s tr r E1 E2 E3 _ Hb) as Q. cbn beta in Q.
  apply (claim_C66_membership P leaves (map (ceval s) sib) (ceval s leaf) (ceval s r) i HP Ht Hr); now rewrite map_length.
Qed.
End PrimeClaims.

(** The root does not bind the number of leaves: zeros at the end and, one level
    up, the hash of two leaves. *)
Lemma claim_C66_length_refuted : exists (p : positive) (P : @PoseidonParams p) (l1 l2 l3 l4 : list (Num p)) (r r' : Num p), Prime p /\ pp_ok P /\ (2 <= ppt P)%nat /\
  (length l1 < length l2)%nat /\ poseidon_merkle_tree_root P l1 = Ok r /\ poseidon_merkle_tree_root P l2 = Ok r /\
  (length l3 < length l4)%nat /\ poseidon_merkle_tree_root P l3 = Ok r' /\ poseidon_merkle_tree_root P l4 = Ok r'.
Proof.
  destruct (poseidon_merkle_tree_root P37 [num 22; num 9]) as [r'|] eqn:E'; [|vm_compute in E'; discriminate].
  destruct (poseidon_merkle_tree_root P37 [num 22; num 9; num 4]) as [r|] eqn:E; [|vm_compute in E; discriminate].
  exists 37%positive, P37, [num 22; num 9; num 4], [num 22; num 9; num 4; num 0], [r'], [num 22; num 9], r, r'.
  split; [exact p37|]. split; [apply P37_ok|]. split; [cbn; lia|]. split; [cbn; lia|]. split; [exact E|]. split; [rewrite <- E; vm_compute; reflexivity|].
  split; [cbn; lia|]. split; [|exact E']. vm_compute in E'. assert (X : r' = r') by reflexivity. clear X.
  assert (Y : forall x : Num 37, poseidon_merkle_tree_root P37 [x] = Ok x) by (intros; reflexivity). apply Y.
Qed.

(** ** Signatures *)
Section Sig.
Context {p l : positive} (J : JubJub p l) (K : jubjub_ok J).
Let EG := edwards_group (j_p _ K) _ (j_m1 _ K) (j_d _ K).

Lemma sub_x_inj A B : insub J A -> insub J B -> ex A = ex B -> A = B.
Proof.
  intros [A1 A2] [B1 B2] E.
  destruct (subgroup_decompress_ok (j_p _ K) _ (j_m1 _ K) (j_d _ K) sqrt_search (sqrt_search_ok _) l (ex A) (j_odd _ K)) as [[Q|] [_ H]]; [|now destruct (H A)].
  destruct H as [_ [_ [_ H]]]. rewrite (H A), (H B); auto.
Qed.
Lemma sub_mul k A : insub J A -> insub J (emul (jd J) k A).
Proof.
  intros [A1 A2]. split; [now apply (ok_zmul EG)|].
  transitivity (emul (jd J) (Zpos l * k) A); [symmetry; exact (zmul_mul EG _ _ _ A1)|].
  rewrite Z.mul_comm. transitivity (emul (jd J) k (emul (jd J) (Zpos l) A)); [exact (zmul_mul EG _ _ _ A1)|]. rewrite A2. exact (zmul_zero EG k).
Qed.
End Sig.

Section Lin.
Context {l : positive} (Hl : Prime l).
Lemma num_mod x : (num (x mod Zpos l) : Num l) = num x.
Proof. apply num_eq_mod, Zmod_mod. Qed.
Lemma num_lin x z (v : Num l) : num (x + z * nval v) = num x + num z * v.
Proof.
  apply num_eq. unfold nadd, nmul. rewrite !nval_num, Zplus_mod_idemp_l, Zplus_mod_idemp_r.
  rewrite <- (Zplus_mod_idemp_r (z mod _ * _)), Zmult_mod_idemp_l, Zplus_mod_idemp_r. reflexivity.
Qed.
Add Field lin_field : (num_field Hl) (morphism (@num_morph l), constants [num_cst], power_tac (@num_power l) [num_pow_cst]).
Lemma lin_solve (s s' h h' k : Num l) : h - h' <> 0 -> s + h' * k = s' + h * k -> (s - s') / (h - h') = k.
Proof.
  intros D E. assert (X : s - s' = (h - h') * k) by (transitivity (s + h' * k - s' - h' * k); [ring|rewrite E; ring]).
  rewrite X. field. exact D.
Qed.
End Lin.

(* C67 *)
(** The accepted messages for given s, r and a: those whose hash is the same
    modulo the order of the subgroup. *)
Lemma claim_C67_message : forall (p l : positive) (J : JubJub p l) (P : @PoseidonParams p) sqrt (s : Num l) (r a m m' : Num p),
  jubjub_ok J -> (forall a, match sqrt a with Some b => b * b = a | None => ~ is_square a end) ->
  full_bytes p = true -> full_bytes l = true -> pp_ok P -> (4 <= ppt P)%nat -> a <> 0 ->
  eddsaposeidon_verify P sqrt J s r a m = Ok true ->
  exists salt h h' b, from_seed SEED_EDDSA_POSEIDON = Ok salt /\ poseidon P [r; a; m; salt] = Ok h /\ poseidon P [r; a; m'; salt] = Ok h' /\
    eddsaposeidon_verify P sqrt J s r a m' = Ok b /\ (b = true <-> nval h mod Zpos l = nval h' mod Zpos l)%Z.
Proof.
  intros p l J P sqrt s r a m m' K Hs Hf Hf' HP Ht Na V. pose proof (edwards_group (j_p _ K) _ (j_m1 _ K) (j_d _ K)) as EG.
  destruct (claim_C36_verify_equation p l J P sqrt s r a m K Hs Hf Hf' HP Ht) as [salt [h [b [E1 [E2 [E3 E4]]]]]].
  destruct (claim_C36_verify_equation p l J P sqrt s r a m' K Hs Hf Hf' HP Ht) as [salt' [h' [b' [E1' [E2' [E3' E4']]]]]].
  assert (salt' = salt) by congruence. subst salt'. assert (b = true) by congruence. subst b.
  destruct (proj1 E4 eq_refl) as [A [R [A1 [A2 [A3 [R1 [R2 [R3 E]]]]]]]].
  exists salt, h, h', b'. repeat (split; [assumption|]). rewrite E4'. clear E4 E4'. pose proof (j_l _ K) as Hl. split.
  - intros [A' [R' [A1' [A2' [A3' [R1' [R2' [R3' E']]]]]]]].
    assert (A' = A) by (apply (sub_x_inj J K); [split|split|]; auto; congruence).
    assert (R' = R) by (apply (sub_x_inj J K); [split|split|]; auto; congruence). subst A' R'.
    assert (NA : A <> e_zero) by (intros ->; apply Na; symmetry; exact A2).
    rewrite E in E'. assert (X : emul (jd J) (nval h) A = emul (jd J) (nval h') A).
    { assert (O1 : on_curve (jd J) (emul (jd J) (nval h) A)) by now apply (ok_zmul EG). assert (O2 : on_curve (jd J) (emul (jd J) (nval h') A)) by now apply (ok_zmul EG).
      apply (gcancel EG R); auto. rewrite (gaddC _ _ _ _ EG R), (gaddC _ _ _ _ EG R (emul _ (nval h') A)); auto. }
    assert (Z : emul (jd J) (nval h - nval h') A = e_zero).
    { transitivity (eadd (jd J) (emul (jd J) (nval h) A) (eneg (emul (jd J) (nval h') A))); [exact (zmul_sub EG _ _ _ A1)|].
      rewrite X. apply (gaddNr EG). now apply (ok_zmul EG). }
    apply (zmul_order_prime EG _ _ _ A1 Hl A3 NA) in Z.
    apply Z.mod_divide in Z; [|lia]. pose proof (Z.div_mod (nval h - nval h') (Zpos l) ltac:(lia)) as D. rewrite Z, Z.add_0_r in D.
    replace (nval h) with (nval h' + (nval h - nval h') / Zpos l * Zpos l)%Z by lia. apply Z.mod_add. lia.
  - intros M. exists A, R. repeat (split; [assumption|]). rewrite E. f_equal. exact (zmul_congr EG _ _ _ _ A1 A3 M).
Qed.
(** The key 0: the message is not looked at. *)
Lemma claim_C67_zero_key : forall (p l : positive) (J : JubJub p l) (P : @PoseidonParams p) sqrt (s : Num l) (r m : Num p),
  jubjub_ok J -> (forall a, match sqrt a with Some b => b * b = a | None => ~ is_square a end) ->
  full_bytes p = true -> full_bytes l = true -> pp_ok P -> (4 <= ppt P)%nat ->
  exists b, eddsaposeidon_verify P sqrt J s r 0 m = Ok b /\ (b = true <-> r = ex (emul (jd J) (nval s) (jg J))).
Proof.
  intros p l J P sqrt s r m K Hs Hf Hf' HP Ht. pose proof (edwards_group (j_p _ K) _ (j_m1 _ K) (j_d _ K)) as EG.
  destruct (claim_C36_verify_equation p l J P sqrt s r 0 m K Hs Hf Hf' HP Ht) as [salt [h [b [E1 [E2 [E3 E4]]]]]].
  exists b. split; [exact E3|]. rewrite E4. clear E4.
  assert (T : forall R, on_curve (jd J) R -> eadd (jd J) (emul (jd J) (nval h) (mkE 0 1)) R = R).
  { intros R HR. transitivity (eadd (jd J) e_zero R); [f_equal; exact (zmul_zero EG (nval h))|]. now apply (gadd0 _ _ _ _ EG). }
  split.
  - intros [A [R [A1 [A2 [A3 [R1 [R2 [R3 E]]]]]]]].
    assert (A = mkE 0 1) as -> by (apply (sub_x_inj J K); [split|apply (sub_zero J K)|]; auto). rewrite T in E by auto. now rewrite E.
  - intros ->. destruct (sub_mul J K (nval s) (jg J)) as [G1 G2]; [split; apply K|]. destruct (sub_zero J K) as [Z1 Z2].
    exists (mkE 0 1), (emul (jd J) (nval s) (jg J)). repeat (split; [assumption || reflexivity|]). now rewrite T.
Qed.
(** The circuit accepts it too: for every message, with no key at all. *)
Lemma claim_C67_zero_key_circuit : forall (p l : positive) (J : JubJub p l) (P : @PoseidonParams p) (sqrt : Num p -> option (Num p)) (s m : Num p),
  jubjub_ok J -> (8 < Zpos l)%Z -> (num_bits l < num_bits p)%nat -> full_bytes p = true -> full_bytes l = true ->
  (forall a, match sqrt a with Some b => b * b = a | None => ~ is_square a end) ->
  pp_ok P -> Forall (fun row => nth 0 row 0 <> 0) (ppm P) -> (2 <= ppf P)%nat -> (4 <= ppt P)%nat ->
  (nval s < Zpos l)%Z ->
  let r := ex (emul (jd J) (nval s) (jg J)) in
  demo [s; r; 0; m] (eddsa_gadget sqrt P J s r 0 m) (fun w out => ceval w out = 1).
Proof.
  intros p l J P sqrt s m K L8 LB Hf Hf' Hs HP HP0 HPf HPt Hb r.
  destruct (claim_C44_every_input p l J P sqrt s r 0 m K L8 LB Hf Hf' Hs HP HP0 HPf HPt) as [b [X Y]].
  { eapply Z.lt_le_trans; [exact Hb|]. apply Z.lt_le_incl, num_bits_upper. }
  { exists (mkE 0 1). split; [exact (sub_zero J K)|reflexivity]. }
  { exists (emul (jd J) (nval s) (jg J)). split; [|reflexivity]. apply (sub_mul J K). split; apply K. }
  destruct (claim_C67_zero_key p l J P sqrt (num (nval s)) r m K Hs Hf Hf' HP HPt) as [b' [X' H]].
  assert (b' = b) as -> by congruence. assert (b = true) as ->; [|exact Y]. apply H.
  rewrite nval_num, Z.mod_small by (pose proof (nval_range s); lia). reflexivity.
Qed.

(* C68 *)
(** What the native code signs, the circuit accepts. *)
Lemma claim_C68_signed_accepted : forall (p l : positive) (J : JubJub p l) (P : @PoseidonParams p) (sqrt : Num p -> option (Num p)) (sk : Num l) (m : Num p),
  jubjub_ok J -> (8 < Zpos l < Zpos p)%Z -> (num_bits l < num_bits p)%nat -> full_bytes p = true -> full_bytes l = true ->
  (forall a, match sqrt a with Some b => b * b = a | None => ~ is_square a end) ->
  pp_ok P -> Forall (fun row => nth 0 row 0 <> 0) (ppm P) -> (2 <= ppf P)%nat -> (4 <= ppt P)%nat ->
  exists s r A, eddsaposeidon_sign P J sk m = Ok (s, r) /\ e_mul (jd J) (jg J) sk = Ok A /\
    let s' := num (nval s) : Num p in nval s' = nval s /\
    demo [s'; r; ex A; m] (eddsa_gadget sqrt P J s' r (ex A) m) (fun w out => ceval w out = 1).
Proof.
  intros p l J P sqrt sk m K [L8 Llp] LB Hf Hf' Hs HP HP0 HPf HPt.
  destruct (claim_C35_sign_verify p l J P sqrt sk m K Hs Hf Hf' HP HPt) as [s [r [A [S1 [S2 S3]]]]].
  exists s, r, A. split; [exact S1|]. split; [exact S2|]. intros s'. pose proof (nval_range s) as Rs.
  assert (Es : nval s' = nval s) by (unfold s'; rewrite nval_num; apply Z.mod_small; lia). split; [exact Es|].
  destruct (claim_C36_verify_equation p l J P sqrt s r (ex A) m K Hs Hf Hf' HP HPt) as [salt [h [b0 [E1 [E2 [E3 E4]]]]]].
  assert (b0 = true) by congruence. subst b0. destruct (proj1 E4 eq_refl) as [A' [R [A1 [A2 [A3 [R1 [R2 [R3 E]]]]]]]].
  destruct (claim_C44_every_input p l J P sqrt s' r (ex A) m K L8 LB Hf Hf' Hs HP HP0 HPf HPt) as [b [X Y]].
  { rewrite Es. eapply Z.lt_le_trans; [apply Rs|]. apply Z.lt_le_incl, num_bits_upper. }
  { exists A'. split; [now split|auto]. }
  { exists R. split; [now split|auto]. }
  rewrite Es, num_nval in X. assert (b = true) as -> by congruence. exact Y.
Qed.
(** For the two parameter sets of the library. *)
Lemma claim_C68_both_curves : forall s1 s2 J1 J2 (P1 : @PoseidonParams bn_r) (P2 : @PoseidonParams bls_r),
  (forall a, match s1 a with Some b => b * b = a | None => ~ is_square a end) ->
  (forall a, match s2 a with Some b => b * b = a | None => ~ is_square a end) ->
  jubjub_bn s1 = Ok J1 -> jubjub_bls s2 = Ok J2 ->
  pp_ok P1 -> Forall (fun row => nth 0 row 0 <> 0) (ppm P1) -> (2 <= ppf P1)%nat -> (4 <= ppt P1)%nat ->
  pp_ok P2 -> Forall (fun row => nth 0 row 0 <> 0) (ppm P2) -> (2 <= ppf P2)%nat -> (4 <= ppt P2)%nat ->
  (forall sk m, exists s r A, eddsaposeidon_sign P1 J1 sk m = Ok (s, r) /\ e_mul (jd J1) (jg J1) sk = Ok A /\
    demo [num (nval s); r; ex A; m] (eddsa_gadget s1 P1 J1 (num (nval s)) r (ex A) m) (fun w out => ceval w out = 1)) /\
  (forall sk m, exists s r A, eddsaposeidon_sign P2 J2 sk m = Ok (s, r) /\ e_mul (jd J2) (jg J2) sk = Ok A /\
    demo [num (nval s); r; ex A; m] (eddsa_gadget s2 P2 J2 (num (nval s)) r (ex A) m) (fun w out => ceval w out = 1)).
Proof.
  intros s1 s2 J1 J2 P1 P2 H1 H2 E1 E2 K1 N1 F1 T1 K2 N2 F2 T2.
  destruct jubjub_bn_ok as [J [K [_ [_ [_ [_ E]]]]]]. destruct jubjub_bls_ok as [J' [K' [_ [_ [_ [_ E']]]]]].
  rewrite E in E1 by exact H1. rewrite E' in E2 by exact H2.
  assert (J = J1) by congruence. assert (J' = J2) by congruence. subst.
  split; intros sk m.
  - destruct (claim_C68_signed_accepted _ _ J1 P1 s1 sk m K) as [s [r [A [X1 [X2 [_ X3]]]]]]; eauto 10; try (split; reflexivity); vm_compute; auto; lia.
  - destruct (claim_C68_signed_accepted _ _ J2 P2 s2 sk m K') as [s [r [A [X1 [X2 [_ X3]]]]]]; eauto 10; try (split; reflexivity); vm_compute; auto; lia.
Qed.

(* C69 *)
(** What [sign] returns, in terms of the hash functions and multiples of G. *)
Lemma claim_C69_signature : forall (p l : positive) (J : JubJub p l) (P : @PoseidonParams p) (sk : Num l) (m : Num p),
  jubjub_ok J -> full_bytes p = true -> full_bytes l = true -> pp_ok P -> (4 <= ppt P)%nat ->
  let rho := (be_val (blake2s 32 PERSONALIZATION (be_bytes (num_bytes l) (nval sk) ++ be_bytes (num_bytes p) (nval m))) mod Zpos l)%Z in
  let r := ex (emul (jd J) rho (jg J)) in
  exists salt h, from_seed SEED_EDDSA_POSEIDON = Ok salt /\
    poseidon P [r; ex (emul (jd J) (nval sk) (jg J)); m; salt] = Ok h /\
    eddsaposeidon_sign P J sk m = Ok (num (rho + nval h * nval sk), r).
Proof.
  intros p l J P sk m K Hf Hf' HP Ht rho r. pose proof (j_p _ K) as Hp. pose proof (j_m1 _ K) as Hm1. pose proof (j_d _ K) as Hd.
  destruct (hash_ram_ok P r (ex (emul (jd J) (nval sk) (jg J))) m Hf HP Ht) as [salt [h [E1 [E2 E]]]].
  exists salt, h. split; [exact E1|]. split; [exact E2|]. unfold eddsaposeidon_sign, hash_r.
  rewrite !into_binary_be_ok, Hf, Hf'. cbn [rbind]. rewrite from_binary_be_ok, Hf' by apply blake2s_bytes. cbn [rbind].
  unfold sign_with. rewrite !(e_mul_ok Hp _ Hm1 Hd (jg J)) by apply (j_g _ K). cbn [rbind]. rewrite nval_num. fold rho. fold r.
  rewrite E. cbn [rbind]. rewrite into_other_ok, Hf, Hf'. cbn [andb rbind]. do 2 f_equal.
  rewrite num_lin. unfold rho. now rewrite num_mod.
Qed.
(** Two accepted signatures with the same r, for the key of [sk], give [sk] away. *)
Lemma claim_C69_nonce_reuse : forall (p l : positive) (J : JubJub p l) (P : @PoseidonParams p) sqrt (sk s s' : Num l) (r m m' h h' salt : Num p),
  jubjub_ok J -> (forall a, match sqrt a with Some b => b * b = a | None => ~ is_square a end) ->
  full_bytes p = true -> full_bytes l = true -> pp_ok P -> (4 <= ppt P)%nat ->
  let a := ex (emul (jd J) (nval sk) (jg J)) in
  from_seed SEED_EDDSA_POSEIDON = Ok salt -> poseidon P [r; a; m; salt] = Ok h -> poseidon P [r; a; m'; salt] = Ok h' ->
  eddsaposeidon_verify P sqrt J s r a m = Ok true -> eddsaposeidon_verify P sqrt J s' r a m' = Ok true ->
  (nval h mod Zpos l <> nval h' mod Zpos l)%Z ->
  ndiv (s - s') (num (nval h) - num (nval h')) = Ok sk.
Proof.
  intros p l J P sqrt sk s s' r m m' h h' salt K Hs Hf Hf' HP Ht a H0 H1 H2 V V' N.
  pose proof (edwards_group (j_p _ K) _ (j_m1 _ K) (j_d _ K)) as EG. pose proof (j_g _ K) as HG.
  destruct (claim_C36_verify_equation p l J P sqrt s r a m K Hs Hf Hf' HP Ht) as [salt1 [h1 [b [E1 [E2 [E3 E4]]]]]].
  destruct (claim_C36_verify_equation p l J P sqrt s' r a m' K Hs Hf Hf' HP Ht) as [salt2 [h2 [b' [E1' [E2' [E3' E4']]]]]].
  assert (salt1 = salt) by congruence. assert (salt2 = salt) by congruence. subst salt1 salt2.
  assert (h1 = h) by congruence. assert (h2 = h') by congruence. subst h1 h2.
  assert (b = true) by congruence. assert (b' = true) by congruence. subst b b'.
  destruct (proj1 E4 eq_refl) as [A [R [A1 [A2 [A3 [R1 [R2 [R3 E]]]]]]]].
  destruct (proj1 E4' eq_refl) as [A' [R' [A1' [A2' [A3' [R1' [R2' [R3' E']]]]]]]]. clear E4 E4'.
  assert (GS : insub J (jg J)) by (split; apply K).
  assert (A = emul (jd J) (nval sk) (jg J)) by (apply (sub_x_inj J K); [now split|now apply (sub_mul J K)|exact A2]).
  assert (A' = emul (jd J) (nval sk) (jg J)) by (apply (sub_x_inj J K); [now split|now apply (sub_mul J K)|exact A2']).
  assert (R' = R) by (apply (sub_x_inj J K); [now split|now split|congruence]). subst A A' R'.
  assert (M : forall n k, emul (jd J) n (emul (jd J) k (jg J)) = emul (jd J) (n * k) (jg J)) by (intros; symmetry; exact (zmul_mul EG _ _ _ HG)).
  assert (OE : forall n, on_curve (jd J) (emul (jd J) n (jg J))) by (intros; now apply (ok_zmul EG)).
  rewrite M in E, E'.
  assert (X : emul (jd J) (nval s + nval h' * nval sk) (jg J) = emul (jd J) (nval s' + nval h * nval sk) (jg J)).
  { transitivity (eadd (jd J) (emul (jd J) (nval s) (jg J)) (emul (jd J) (nval h' * nval sk) (jg J))); [exact (zmul_add EG _ _ _ HG)|].
    transitivity (eadd (jd J) (emul (jd J) (nval s') (jg J)) (emul (jd J) (nval h * nval sk) (jg J))); [|symmetry; exact (zmul_add EG _ _ _ HG)].
    rewrite E, E'. generalize (OE (nval h * nval sk)%Z), (OE (nval h' * nval sk)%Z).
    generalize (emul (jd J) (nval h * nval sk) (jg J)), (emul (jd J) (nval h' * nval sk) (jg J)). intros x y Hx Hy.
    assert (O : on_curve (jd J) (eadd (jd J) y R)) by now apply (ok_add _ _ _ _ EG).
    rewrite (gaddA _ _ _ _ EG x R y), (gaddC _ _ _ _ EG R y), (gaddC _ _ _ _ EG x) by auto. reflexivity. }
  assert (Y : (s + num (nval h') * sk) = (s' + num (nval h) * sk)).
  { apply (subgroup_scalar_inj J K). 
    assert (C : forall (u v : Num l) z, emul (jd J) (nval (u + num z * v)) (jg J) = emul (jd J) (nval u + z * nval v) (jg J)).
    { intros u v z. apply (zmul_congr EG (Zpos l)); [exact HG|exact (j_gl _ K)|].
      apply num_eq_mod. now rewrite num_nval, num_lin, num_nval. }
    now rewrite !C. }
  clear - N Y K. pose proof (j_l _ K) as Hl. clear K.
  assert (D : (num (nval h) : Num l) - num (nval h') <> 0).
  { intros D. apply N. apply num_eq_mod. apply (sub_eq0 Hl). exact D. }
  rewrite (ndiv_ok _ _ D). f_equal. now apply (lin_solve Hl).
Qed.
(** Secret keys and subgroup points correspond one to one, by the x coordinate. *)
Lemma claim_C69_key : forall (p l : positive) (J : JubJub p l), jubjub_ok J ->
  (forall sk sk' : Num l, ex (emul (jd J) (nval sk) (jg J)) = ex (emul (jd J) (nval sk') (jg J)) -> sk = sk') /\
  (forall A, on_curve (jd J) A -> emul (jd J) (Zpos l) A = mkE 0 1 -> exists sk : Num l, A = emul (jd J) (nval sk) (jg J)).
Proof.
  intros p l J K. split.
  - intros sk sk' E. apply (subgroup_scalar_inj J K). assert (GS : insub J (jg J)) by (split; apply K).
    apply (sub_x_inj J K); auto using (sub_mul J K).
  - intros A A1 A2. destruct (j_cyc _ K A A1 A2) as [k [Hk ->]]. exists (num k). rewrite nval_num_small by lia. reflexivity.
Qed.

Lemma emul_num {p l} (J : JubJub p l) (K : jubjub_ok J) z : emul (jd J) (nval (num z : Num l)) (jg J) = emul (jd J) z (jg J).
Proof.
  pose proof (edwards_group (j_p _ K) _ (j_m1 _ K) (j_d _ K)) as EG.
  apply (zmul_congr EG (Zpos l)); [exact (j_g _ K)|exact (j_gl _ K)|]. rewrite nval_num. apply Zmod_mod.
Qed.
(** ** Cases *)
(** In a small field there are collisions: two proofs with the same path and root. *)
Lemma case_C66_proof_binding :
  hval (poseidon_merkle_proof_root P37 (num 22) [num 9] [false]) = 4%Z /\ hval (poseidon_merkle_proof_root P37 (num 2) [num 29] [false]) = 4%Z /\
  hval (poseidon_merkle_tree_root P37 [num 22; num 9]) = 4%Z /\ hval (poseidon_merkle_tree_root P37 [num 2; num 29]) = 4%Z.
Proof. repeat split; vm_compute; reflexivity. Qed.
(** Leaf 2 of three. *)
Lemma case_C66_membership : (3 <= 2 ^ 2 < 2 * 3)%nat /\
  poseidon_merkle_proof_root P37 (num 5) [num 0; num 4] (map (Nat.testbit 2) (seq 0 2)) = poseidon_merkle_tree_root P37 [num 22; num 9; num 5] /\
  hval (poseidon_merkle_proof_root P37 (num 6) [num 0; num 4] (map (Nat.testbit 2) (seq 0 2))) <> hval (poseidon_merkle_tree_root P37 [num 22; num 9; num 5]).
Proof. split; [cbn; lia|]. split; vm_compute; [reflexivity|discriminate]. Qed.
(** A signature with a non-zero key. *)
Lemma case_C67_message : exists (J : JubJub bn_r bn_l) s r a, jubjub_ok J /\ a <> 0 /\
  eddsaposeidon_verify pp4 sqrt_search J s r a (num 1) = Ok true.
Proof.
  destruct jubjub_bn_ok as [J [K _]]. destruct (pp4_ok bn_r) as [HP Ht]. pose proof (edwards_group (j_p _ K) _ (j_m1 _ K) (j_d _ K)) as EG.
  assert (Fb : full_bytes bn_r = true /\ full_bytes bn_l = true) by (split; vm_compute; reflexivity). destruct Fb as [F1 F2].
  destruct (claim_C35_sign_verify _ _ J pp4 sqrt_search (num 2) (num 1) K (sqrt_search_ok _) F1 F2 HP Ht) as [s [r [A [_ [EA V]]]]].
  exists J, s, r, (ex A). split; auto. split; [|exact V]. intros Z.
  destruct (claim_C29_mul _ (j_p _ K) (jd J) (jg J) (j_m1 _ K) (j_d _ K) (j_g _ K)) as [HA' _].
  specialize (HA' bn_l (num 2)). assert (HA : A = emul (jd J) (nval (num 2 : Num bn_l)) (jg J)) by congruence. clear HA'. rename HA into HA'.
  assert (X : A = mkE 0 1).
  { apply (sub_x_inj J K); [|exact (sub_zero J K)|exact Z]. rewrite HA'. apply (sub_mul J K). split; apply K. }
  rewrite X in HA'. symmetry in HA'.
  assert (D : (num 2 : Num bn_l) = 0).
  { apply (subgroup_scalar_inj J K). rewrite HA'. reflexivity. }
  apply (f_equal nval) in D. now vm_compute in D.
Qed.
(** The key 0 on the bn256 curve: 5 G signs every message. *)
Lemma case_C67_zero_key : exists J : JubJub bn_r bn_l, jubjub_ok J /\ forall m,
  eddsaposeidon_verify pp4 sqrt_search J (num 5) (ex (emul (jd J) 5 (jg J))) 0 m = Ok true /\
  demo [num 5; ex (emul (jd J) 5 (jg J)); 0; m] (eddsa_gadget sqrt_search pp4 J (num 5) (ex (emul (jd J) 5 (jg J))) 0 m) (fun w out => ceval w out = 1).
Proof.
  destruct jubjub_bn_ok as [J [K _]]. destruct pp4_more as [HP [HP0 [HPf HPt]]]. exists J. split; auto. intros m.
  assert (F1 : full_bytes bn_r = true) by (vm_compute; reflexivity). assert (F2 : full_bytes bn_l = true) by (vm_compute; reflexivity).
  assert (N1 : nval (num 5 : Num bn_l) = 5%Z) by (vm_compute; reflexivity). assert (N2 : nval (num 5 : Num bn_r) = 5%Z) by (vm_compute; reflexivity).
  split.
  - destruct (claim_C67_zero_key _ _ J pp4 sqrt_search (num 5) (ex (emul (jd J) 5 (jg J))) m K (sqrt_search_ok _) F1 F2 HP HPt) as [b [E H]].
    rewrite E. f_equal. apply H. now rewrite N1.
  - pose proof (claim_C67_zero_key_circuit _ _ J pp4 sqrt_search (num 5) m K ltac:(reflexivity) ltac:(vm_compute; lia) F1 F2 (sqrt_search_ok _) HP HP0 HPf HPt) as X.
    rewrite N2 in X. apply X. reflexivity.
Qed.
Lemma case_C68_signed_accepted : (8 < Zpos bn_l < Zpos bn_r)%Z /\ (8 < Zpos bls_l < Zpos bls_r)%Z /\
  pp_ok (@pp4 bn_r) /\ Forall (fun row => nth 0 row 0 <> 0) (ppm (@pp4 bn_r)) /\ (2 <= ppf (@pp4 bn_r))%nat /\ (4 <= ppt (@pp4 bn_r))%nat.
Proof. split; [split; reflexivity|]. split; [split; reflexivity|]. exact pp4_more. Qed.
(** The key 1 on the bn256 curve, with the nonce 1 for the messages 1 and 2. *)
Lemma case_C69_nonce_reuse : exists (J : JubJub bn_r bn_l) (s s' : Num bn_l) (h h' salt : Num bn_r), jubjub_ok J /\
  let a := num bn_gx in ex (emul (jd J) (nval (num 1 : Num bn_l)) (jg J)) = a /\
  from_seed SEED_EDDSA_POSEIDON = Ok salt /\ poseidon pp4 [a; a; num 1; salt] = Ok h /\ poseidon pp4 [a; a; num 2; salt] = Ok h' /\
  eddsaposeidon_verify pp4 sqrt_search J s a a (num 1) = Ok true /\ eddsaposeidon_verify pp4 sqrt_search J s' a a (num 2) = Ok true /\
  (nval h mod Zpos bn_l <> nval h' mod Zpos bn_l)%Z.
Proof.
  destruct jubjub_bn_ok as [J [K [_ [_ [_ [_ E]]]]]]. pose proof (jubjub_bn_gen _ J (sqrt_search_ok _) (E _ (sqrt_search_ok _))) as EJ.
  destruct (pp4_ok bn_r) as [HP Ht].
  assert (F1 : full_bytes bn_r = true) by (vm_compute; reflexivity). assert (F2 : full_bytes bn_l = true) by (vm_compute; reflexivity).
  assert (X1 : ex (jg J) = num bn_gx) by now rewrite EJ.
  pose proof (edwards_group (j_p _ K) _ (j_m1 _ K) (j_d _ K)) as EG. pose proof (j_g _ K) as HG.
  assert (V : forall m, exists salt h, from_seed SEED_EDDSA_POSEIDON = Ok salt /\ poseidon pp4 [num bn_gx; num bn_gx; m; salt] = Ok h /\
    eddsaposeidon_verify pp4 sqrt_search J (num (nval h + 1)) (num bn_gx) (num bn_gx) m = Ok true).
  { intros m. destruct (hash_ram_ok pp4 (num bn_gx) (num bn_gx) m F1 HP Ht) as [salt [h [E1 [E2 _]]]]. exists salt, h. split; auto. split; auto.
    destruct (claim_C36_verify_equation _ _ J pp4 sqrt_search (num (nval h + 1)) (num bn_gx) (num bn_gx) m K (sqrt_search_ok _) F1 F2 HP Ht)
      as [salt1 [h1 [b [E1' [E2' [E3 E4]]]]]].
    assert (salt1 = salt) by congruence. subst salt1. assert (h1 = h) by congruence. subst h1.
    rewrite E3. f_equal. apply E4. exists (jg J), (jg J). pose proof (j_gl _ K) as HL.
    split; [exact HG|]. split; [exact X1|]. split; [exact HL|]. split; [exact HG|]. split; [exact X1|]. split; [exact HL|].
    transitivity (emul (jd J) (nval h + 1) (jg J)).
    - apply (emul_num J K).
    - etransitivity; [exact (zmul_add EG _ _ _ HG)|]. f_equal. exact (zmul_1 EG _ HG). }
  destruct (V (num 1)) as [salt [h [E1 [E2 V1]]]]. destruct (V (num 2)) as [salt' [h' [E1' [E2' V2]]]].
  assert (salt' = salt) by congruence. subst salt'. clear V.
  exists J, (num (nval h + 1)), (num (nval h' + 1)), h, h', salt. split; [exact K|]. cbv zeta.
  split. { rewrite <- X1. f_equal. replace (nval (num 1 : Num bn_l)) with 1%Z by (vm_compute; reflexivity). exact (zmul_1 EG _ HG). }
  split; [exact E1|]. split; [exact E2|]. split; [exact E2'|]. split; [exact V1|]. split; [exact V2|].
  clear - E1 E2 E2'.
  assert (T : match from_seed (p := bn_r) SEED_EDDSA_POSEIDON with Ok s => match poseidon pp4 [num bn_gx; num bn_gx; num 1; s], poseidon pp4 [num bn_gx; num bn_gx; num 2; s] with
    Ok x, Ok y => negb (nval x mod Zpos bn_l =? nval y mod Zpos bn_l)%Z | _, _ => false end | _ => false end = true) by (vm_compute; reflexivity).
  rewrite E1, E2, E2' in T. intros D. rewrite D, Z.eqb_refl in T. discriminate T.
Qed.
(** Both curves satisfy the hypotheses of the other two claims. *)
Lemma case_C69_signature : exists (J : JubJub bn_r bn_l) (J' : JubJub bls_r bls_l), jubjub_ok J /\ jubjub_ok J' /\
  full_bytes bn_r && full_bytes bn_l && full_bytes bls_r && full_bytes bls_l = true /\
  pp_ok (@pp4 bn_r) /\ pp_ok (@pp4 bls_r) /\ (4 <= ppt (@pp4 bn_r))%nat.
Proof.
  destruct jubjub_bn_ok as [J [K _]]. destruct jubjub_bls_ok as [J' [K' _]]. exists J, J'. split; [exact K|]. split; [exact K'|].
  split; [vm_compute; reflexivity|]. split; [apply pp4_ok|]. split; [apply pp4_ok|]. cbn. lia.
Qed.
