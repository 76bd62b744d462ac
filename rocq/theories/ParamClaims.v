(** The properties of hashing, Merkle trees and signatures for the parameters the
    library itself creates: the curves of JubJubBN256::new() and
    JubJubBLS12_381::new(), and PoseidonParams::new(4, 8, 54) and (3, 8, 53) over
    the scalar field of BN256. No hypothesis on the parameters is left. *)

From Verif Require Export LibClaims BindClaims.
From Verif Require Import Window WindowBN WindowBLS.
Open Scope num_scope.

Lemma lib_params t f q : In (t, f, q) [(4, 8, 54); (3, 8, 53); (2, 8, 53)]%nat -> exists P : @PoseidonParams bn_r,
  pp_new 64 true t f q = Ok (Some P) /\ pp_ok P /\ ppt P = t /\ ppf P = f /\ ppp P = q /\ Forall (fun row => nth 0 row 0 <> 0) (ppm P).
Proof.
  intros I. destruct (claim_C65_library _ I) as [P [E [Et [HP _]]]]. destruct (claim_C60_library_parameters _ I) as [P' [E' [_ [_ [_ Z0]]]]].
  cbn [fst snd] in *. assert (P' = P) by congruence. subst P'. exists P. split; [exact E|]. split; [exact HP|]. split; [exact Et|].
  destruct (claim_C60_dimensions bn_r 64 true t f q P) as [_ [Ef [Eq _]]].
  - intros _. assert (L : (f + q + t * t <= 78)%nat) by (destruct I as [I|[I|[I|[]]]]; injection I; intros; subst; lia).
    replace (num_limbs bn_r) with 4%nat by (vm_compute; reflexivity). clear - L. set (n := (f + q + t * t)%nat) in *. clearbody n.
    rewrite Nat2Z.inj_mul. change (Z.of_nat 4) with 4%Z. change (Z.of_nat 64) with 64%Z. lia.
  - exact E.
  - auto.
Qed.

Lemma bn_wnd (J : JubJub bn_r bn_l) : jubjub_ok J -> ja J = num 168698 -> jb J = num (-168700) -> jg J = mkE (num bn_gx) (num bn_gy) -> forall i, (i < 85)%nat ->
  wnd J (emul (jd J) (8 ^ Z.of_nat i) (jg J)).
Proof.
  intros K EA EB EG i Hi. rewrite <- (Z.mul_1_l (8 ^ Z.of_nat i)).
  apply (windows_ok J K 168698 (-168700) EA EB bn_windows 1 bn_gu bn_gv); [|vm_compute; reflexivity|exact Hi].
  split; [split; vm_compute; reflexivity|]. rewrite (em_1 J K) by apply (j_g _ K). rewrite EG.
  split; [|split]; apply num_eq; vm_compute; reflexivity.
Qed.
Lemma bls_wnd (J : JubJub bls_r bls_l) : jubjub_ok J -> ja J = num 40962 -> jb J = num (-40964) -> jg J = mkE (num bls_gx) (num bls_gy) -> forall i, (i < 85)%nat ->
  wnd J (emul (jd J) (8 ^ Z.of_nat i) (jg J)).
Proof.
  intros K EA EB EG i Hi. rewrite <- (Z.mul_1_l (8 ^ Z.of_nat i)).
  apply (windows_ok J K 40962 (-40964) EA EB bls_windows 1 bls_gu bls_gv); [|vm_compute; reflexivity|exact Hi].
  split; [split; vm_compute; reflexivity|]. rewrite (em_1 J K) by apply (j_g _ K). rewrite EG.
  split; [|split]; apply num_eq; vm_compute; reflexivity.
Qed.

Lemma bn_curve sqrt : (forall a, match sqrt a with Some b => b * b = a | None => ~ is_square a end) -> exists J : JubJub bn_r bn_l,
  jubjub_bn sqrt = Ok J /\ jubjub_ok J /\ forall i, (i < 85)%nat -> wnd J (emul (jd J) (8 ^ Z.of_nat i) (jg J)).
Proof.
  intros Hs. destruct jubjub_bn_ok as [J [K [_ [EA [EB [_ E]]]]]]. exists J. split; [exact (E _ Hs)|]. split; [exact K|].
  exact (bn_wnd J K EA EB (jubjub_bn_gen _ _ Hs (E _ Hs))).
Qed.
Lemma bls_curve sqrt : (forall a, match sqrt a with Some b => b * b = a | None => ~ is_square a end) -> exists J : JubJub bls_r bls_l,
  jubjub_bls sqrt = Ok J /\ jubjub_ok J /\ forall i, (i < 85)%nat -> wnd J (emul (jd J) (8 ^ Z.of_nat i) (jg J)).
Proof.
  intros Hs. destruct jubjub_bls_ok as [J [K [_ [EA [EB [_ E]]]]]]. exists J. split; [exact (E _ Hs)|]. split; [exact K|].
  exact (bls_wnd J K EA EB (jubjub_bls_gen _ _ Hs (E _ Hs))).
Qed.

(* C35 *)
(** Every signature verifies, and is the only one with its r. *)
Lemma claim_C35_library : forall (sqrt : Num bn_r -> option (Num bn_r)), (forall a, match sqrt a with Some b => b * b = a | None => ~ is_square a end) ->
  exists J P, jubjub_bn sqrt = Ok J /\ pp_new 64 true 4 8 54 = Ok (Some P) /\
  forall (sk : Num bn_l) (m : Num bn_r), exists s r A, eddsaposeidon_sign P J sk m = Ok (s, r) /\ e_mul (jd J) (jg J) sk = Ok A /\
    forall s', eddsaposeidon_verify P sqrt J s' r (ex A) m = Ok true <-> s' = s.
Proof.
  intros sqrt Hs. destruct (bn_curve sqrt Hs) as [J [EJ [K _]]]. destruct (lib_params 4 8 54) as [P [EP [HP [Ht _]]]]; [cbn; auto|].
  exists J, P. split; [exact EJ|]. split; [exact EP|]. intros sk m.
  assert (HPt : (4 <= ppt P)%nat) by lia.
  destruct (claim_C35_sign_verify _ _ J P sqrt sk m K Hs eq_refl eq_refl HP HPt) as [s [r [A [E1 [E2 E3]]]]].
  exists s, r, A. split; [exact E1|]. split; [exact E2|]. intros s'. split.
  - intros E. exact (claim_C36_unique_scalar _ _ J P sqrt s' s r (ex A) m K Hs eq_refl eq_refl HP HPt E E3).
  - intros ->. exact E3.
Qed.

(* C44 *)
(** The circuit's verdict is the native one, for every satisfying assignment. *)
Lemma claim_C44_library : forall (sqrt : Num bn_r -> option (Num bn_r)), (forall a, match sqrt a with Some b => b * b = a | None => ~ is_square a end) ->
  exists J P, jubjub_bn sqrt = Ok J /\ pp_new 64 true 4 8 54 = Ok (Some P) /\
  forall (U : list Index) (sg r a m : CNum bn_r),
  In I0 U -> Forall (owned U) [sg; r; a; m] -> Forall (fun c => as_const c = None) [sg; r; a; m] ->
  let dec s c := exists Q, insub J Q /\ ex Q = ceval s c in
  let res s out := (nval (ceval s sg) < 2 ^ 251)%Z /\ dec s a /\ dec s r /\
    exists b, eddsaposeidon_verify P sqrt J (num (nval (ceval s sg)) : Num bn_l) (ceval s r) (ceval s a) (ceval s m) = Ok b /\
              ceval s out = nbool b in
  let g := c_eddsaposeidon_verify sqrt P J sg r a m in
  sound_for U g res /\
  complete_for U g (fun s => Forall (valued s) [sg; r; a; m] /\ (nval (ceval s sg) < 2 ^ 251)%Z /\ dec s a /\ dec s r)
    (fun s out => Forall (valued s) [out] /\ res s out) /\
  (Forall blank [sg; r; a; m] -> synth_for U g (fun _ _ out => Forall blank [out] /\ True)).
Proof.
  intros sqrt Hs. destruct (bn_curve sqrt Hs) as [J [EJ [K _]]]. destruct (lib_params 4 8 54) as [P [EP [HP [Ht [Hf [_ Hz]]]]]]; [cbn; auto|].
  exists J, P. split; [exact EJ|]. split; [exact EP|]. intros U sg r a m I O N.
  assert (HPt : (4 <= ppt P)%nat) by lia. assert (HPf : (2 <= ppf P)%nat) by lia.
  exact (claim_C44_verify _ _ J P sqrt U sg r a m K ltac:(reflexivity) ltac:(vm_compute; lia) eq_refl eq_refl Hs HP Hz HPf HPt I O N).
Qed.

(* C61 *)
(** Fixed-base multiplication of the generators: every window is regular, so the
    count of C61_ecmul_const_count is exact for up to 255 bits. *)
Lemma claim_C61_generators : forall s1 s2, (forall a, match s1 a with Some b => b * b = a | None => ~ is_square a end) ->
  (forall a, match s2 a with Some b => b * b = a | None => ~ is_square a end) ->
  exists J1 J2, jubjub_bn s1 = Ok J1 /\ jubjub_bls s2 = Ok J2 /\
  let count {p l} (J : JubJub p l) := forall (U : list Index) (P : CPoint p) (bits : list (CBool p)) (ids : list Index),
    In I0 U -> Forall (owned U) bits -> Forall2 (fun b i => clc b = [(i, 1)]) bits ids -> NoDup ids -> ~ In I0 ids ->
    (2 <= length bits <= 255)%nat -> Forall blank bits -> cp_as_const P = Some (ex (jg J), ey (jg J)) ->
    synth_for U (ce_mul J P bits) (fun _ n _ =>
      (n + wshort (padding (length bits)) = 6 * ((length bits + 2) / 3) + 5)%nat /\ (length bits = 254%nat -> n = 513%nat)) in
  count J1 /\ count J2.
Proof.
  intros s1 s2 H1 H2. destruct (bn_curve s1 H1) as [J1 [E1 [K1 W1]]]. destruct (bls_curve s2 H2) as [J2 [E2 [K2 W2]]].
  exists J1, J2. split; [exact E1|]. split; [exact E2|].
  assert (G : forall p l (J : JubJub p l) U P bits ids, jubjub_ok J -> (8 < Zpos l)%Z -> (forall i, (i < 85)%nat -> wnd J (emul (jd J) (8 ^ Z.of_nat i) (jg J))) ->
    In I0 U -> Forall (owned U) bits -> Forall2 (fun b i => clc b = [(i, 1)]) bits ids -> NoDup ids -> ~ In I0 ids ->
    (2 <= length bits <= 255)%nat -> Forall blank bits -> cp_as_const P = Some (ex (jg J), ey (jg J)) ->
    synth_for U (ce_mul J P bits) (fun _ n _ =>
      (n + wshort (padding (length bits)) = 6 * ((length bits + 2) / 3) + 5)%nat /\ (length bits = 254%nat -> n = 513%nat))).
  { intros p l J U P bits ids K L8 W I0U O F2 ND NI LB BL EC.
    assert (EG : mkE (ex (jg J)) (ey (jg J)) = jg J) by now destruct (jg J).
    pose proof (claim_C61_ecmul_const_count p l J U P (ex (jg J)) (ey (jg J)) bits ids K L8 I0U O F2 ND NI (proj1 LB) BL EC) as C.
    rewrite EG in C. specialize (C (conj (j_g _ K) (j_gl _ K)) (j_g0 _ K)).
    intros tr o He. destruct (C tr o He) as [r [Eo [_ X]]]. exists r. split; [exact Eo|]. apply X.
    intros i Hi. apply W. eapply Nat.lt_le_trans; [exact Hi|]. clear - LB. apply Nat.lt_succ_r, Nat.div_lt_upper_bound; unfold CBool in *; lia. }
  cbv zeta. split; intros U P bits ids; [apply (G _ _ J1)|apply (G _ _ J2)]; auto; reflexivity.
Qed.
(** The signature verifier: 3866 constraints. *)
Lemma claim_C61_library : forall (sqrt : Num bn_r -> option (Num bn_r)), (forall a, match sqrt a with Some b => b * b = a | None => ~ is_square a end) ->
  exists J P, jubjub_bn sqrt = Ok J /\ pp_new 64 true 4 8 54 = Ok (Some P) /\
  forall (U : list Index) (sg r a m : CNum bn_r),
  In I0 U -> Forall (owned U) [sg; r; a; m] -> Forall (fun c => as_const c = None) [sg; r; a; m] -> Forall blank [sg; r; a; m] ->
  synth_for U (c_eddsaposeidon_verify sqrt P J sg r a m) (fun _ n _ => Z.of_nat n = 3866%Z).
Proof.
  intros sqrt Hs. destruct (bn_curve sqrt Hs) as [J [EJ [K W]]]. destruct (lib_params 4 8 54) as [P [EP [HP [Ht [Hf [Hq Hz]]]]]]; [cbn; auto|].
  exists J, P. split; [exact EJ|]. split; [exact EP|]. intros U sg r a m I O N BL.
  assert (HPt : (4 <= ppt P)%nat) by lia. assert (HPf : (2 <= ppf P)%nat) by lia.
  assert (NB : num_bits bn_r = 254%nat) by (vm_compute; reflexivity). assert (NL : num_bits bn_l = 251%nat) by (vm_compute; reflexivity).
  pose proof (claim_C61_eddsa_count _ _ J P sqrt U sg r a m K ltac:(reflexivity) ltac:(lia) eq_refl Hs HP Hz HPf HPt I O N BL) as C.
  intros tr o He. destruct (C ltac:(intros i Hi; apply W; rewrite NL in Hi; change ((251 + 2) / 3)%nat with 84%nat in Hi; lia) tr o He) as [x [Eo [_ X]]].
  exists x. split; [exact Eo|]. apply X; auto.
Qed.

(* C66 *)
(** Roots bind leaves and proofs bind their leaf, or there are two pairs with the same hash. *)
Lemma claim_C66_library : exists P : @PoseidonParams bn_r, pp_new 64 true 3 8 53 = Ok (Some P) /\
  (forall (leaf leaf' : list (Num bn_r)) root, length leaf = length leaf' ->
     poseidon_merkle_tree_root P leaf = Ok root -> poseidon_merkle_tree_root P leaf' = Ok root -> leaf = leaf' \/ collision P) /\
  (forall (leaf sib : list (Num bn_r)) (v root : Num bn_r) (i : nat),
     poseidon_merkle_tree_root P leaf = Ok root -> (length leaf <= 2 ^ length sib < 2 * length leaf)%nat -> (i < 2 ^ length sib)%nat ->
     poseidon_merkle_proof_root P v sib (map (Nat.testbit i) (seq 0 (length sib))) = Ok root -> v = nth i leaf 0 \/ collision P).
Proof.
  destruct (lib_params 3 8 53) as [P [EP [HP [Ht _]]]]; [cbn; auto|]. exists P. split; [exact EP|].
  assert (HPt : (2 <= ppt P)%nat) by lia. split.
  - intros leaf leaf' root L. exact (claim_C66_tree_binding bn_r bn_r_prime P leaf leaf' root HP HPt L).
  - intros leaf sib v root i R L I. exact (claim_C66_membership bn_r bn_r_prime P leaf sib v root i HP HPt R L I).
Qed.

(* C68 *)
(** What the library signs, its circuit accepts. *)
Lemma claim_C68_library : forall (sqrt : Num bn_r -> option (Num bn_r)), (forall a, match sqrt a with Some b => b * b = a | None => ~ is_square a end) ->
  exists J P, jubjub_bn sqrt = Ok J /\ pp_new 64 true 4 8 54 = Ok (Some P) /\
  forall (sk : Num bn_l) (m : Num bn_r), exists s r A, eddsaposeidon_sign P J sk m = Ok (s, r) /\ e_mul (jd J) (jg J) sk = Ok A /\
    let s' := num (nval s) : Num bn_r in nval s' = nval s /\
    demo [s'; r; ex A; m] (eddsa_gadget sqrt P J s' r (ex A) m) (fun w out => ceval w out = 1).
Proof.
  intros sqrt Hs. destruct (bn_curve sqrt Hs) as [J [EJ [K _]]]. destruct (lib_params 4 8 54) as [P [EP [HP [Ht [Hf [_ Hz]]]]]]; [cbn; auto|].
  exists J, P. split; [exact EJ|]. split; [exact EP|]. intros sk m.
  assert (HPt : (4 <= ppt P)%nat) by lia. assert (HPf : (2 <= ppf P)%nat) by lia.
  exact (claim_C68_signed_accepted _ _ J P sqrt sk m K ltac:(split; reflexivity) ltac:(vm_compute; lia) eq_refl eq_refl Hs HP Hz HPf HPt).
Qed.

(** Case: the square root of these theorems exists. *)
Lemma case_C35_library : exists s1 s2, (forall a : Num bn_r, match s1 a with Some b => b * b = a | None => ~ is_square a end) /\
  (forall a : Num bls_r, match s2 a with Some b => b * b = a | None => ~ is_square a end).
Proof. exists sqrt_search, sqrt_search. split; exact (sqrt_search_ok _). Qed.
(** Signals as in the theorems, and 255 bits. *)
Lemma owned_var {p} (Hp : prime (Zpos p)) U v n : In (Aux n) U -> owned (p := p) U (cvar v (Aux n)).
Proof.
  intros H. apply (wf_var (prime_gt1 Hp) (mkst U 0)). exact H.
Qed.
Lemma case_C44_library : exists (U : list Index) (sg r a m : CNum bn_r),
  In I0 U /\ Forall (owned U) [sg; r; a; m] /\ Forall (fun c => as_const c = None) [sg; r; a; m] /\ Forall blank [sg; r; a; m].
Proof.
  exists [I0; Aux 0; Aux 1; Aux 2; Aux 3], (cvar None (Aux 0)), (cvar None (Aux 1)), (cvar None (Aux 2)), (cvar None (Aux 3)).
  split; [now left|]. split; [|split].
  - repeat (constructor; [apply (owned_var bn_r_prime); cbn; auto 6|]). constructor.
  - repeat (constructor; [reflexivity|]). constructor.
  - repeat (constructor; [intros v H; discriminate|]). constructor.
Qed.
Lemma case_C61_generators : exists (U : list Index) (bits : list (CBool bn_r)) (ids : list Index), In I0 U /\ Forall (owned U) bits /\
  Forall2 (fun b i => clc b = [(i, 1)]) bits ids /\ NoDup ids /\ ~ In I0 ids /\ length bits = 255%nat /\ Forall blank bits.
Proof.
  exists (I0 :: map Aux (seq 0 255)), (map (fun n => cvar None (Aux n)) (seq 0 255)), (map Aux (seq 0 255)).
  split; [now left|]. split; [|split; [|split; [|split; [|split]]]].
  - apply Forall_map, Forall_forall. intros n H. apply (owned_var bn_r_prime). right. now apply in_map.
  - induction (seq 0 255); constructor; auto.
  - apply FinFun.Injective_map_NoDup; [intros a b H; now inversion H|apply seq_NoDup].
  - rewrite in_map_iff. intros [n [H _]]. discriminate.
  - rewrite map_length. apply seq_length.
  - apply Forall_map, Forall_forall. intros n _ v H. discriminate.
Qed.
