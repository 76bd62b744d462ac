(** Concrete cases for the theorems that have none beside them. *)

From Verif Require Export FreeClaims LineClaims ParamClaims RandClaims PointClaims SolidityClaims SeedClaims CodecClaims WideClaims BlsClaims.
Open Scope num_scope.

(** ** Conversions *)
Lemma case_C46_minimum : (2 ^ 65 < Zpos bn_r)%Z /\ @from_i64 bn_r true (- 2 ^ 63) = Panic /\ @from_i64 bn_r false (- 2 ^ 63) = Ok (num (- 2 ^ 63)) /\
  @from_i32 bn_r true (- 2 ^ 31) = Panic.
Proof. split; [reflexivity|]. pose proof (claim_C46_minimum bn_r true ltac:(reflexivity)) as [A [B _]]. pose proof (claim_C46_minimum bn_r false ltac:(reflexivity)) as [C _]. auto. Qed.
Lemma case_C46_bool : (1 < 13)%Z /\ into_bool (num 1 : Num 13) = Ok true /\ into_bool (num 0 : Num 13) = Ok false /\ into_bool (num 2 : Num 13) = Panic.
Proof. repeat split. Qed.
Lemma case_C46_biguint : Nat.eqb (num_bytes bn_r) (8 * num_limbs bn_r) = true /\ into_biguint (num (2 ^ 200 + 5) : Num bn_r) = Ok (2 ^ 200 + 5)%Z.
Proof. split; vm_compute; reflexivity. Qed.
Lemma case_C47_roundtrip : @borsh_de 37 (borsh_ser (num 22 : Num 37) ++ [7; 8]%Z) = Some (num 22, [7; 8]%Z) /\ borsh_ser (num 22 : Num 37) = [22; 0; 0; 0; 0; 0; 0; 0]%Z.
Proof. split; [apply claim_C47_roundtrip|vm_compute; reflexivity]. Qed.
Lemma case_C47_injective : borsh_ser (num 22 : Num 37) <> borsh_ser (num 23 : Num 37).
Proof. vm_compute. discriminate. Qed.
Lemma case_C48_roundtrip : Nat.eqb (num_bytes bn_r) (8 * num_limbs bn_r) = true /\ num_to_string (num 407 : Num bn_r) = Ok [52; 48; 55]%Z /\
  num_deserialize [52; 48; 55]%Z = Ok (Some (num 407 : Num bn_r)).
Proof.
  assert (H : Nat.eqb (num_bytes bn_r) (8 * num_limbs bn_r) = true) by (vm_compute; reflexivity). split; [exact H|]. split; [vm_compute; reflexivity|].
  rewrite (claim_C48_exact bn_r _ H) by reflexivity. reflexivity.
Qed.
Lemma case_C48_exact : @num_deserialize bn_r [52; 120]%Z = Ok None /\
  @num_deserialize bn_r (dec (Zpos bn_r)) = Ok None /\ match @num_deserialize bn_r (dec (Zpos bn_r - 1)) with Ok (Some a) => nval a = (Zpos bn_r - 1)%Z | _ => False end.
Proof. split; [vm_compute; reflexivity|]. split; vm_compute; reflexivity. Qed.
Lemma case_C48_not_injective : Nat.eqb (num_bytes bn_r) (8 * num_limbs bn_r) = true /\ (7 < Zpos bn_r)%Z.
Proof. split; vm_compute; reflexivity. Qed.
Lemma case_C48_other_fields : Nat.eqb (num_bytes 37) (8 * num_limbs 37) = false /\ num_to_string (num 5 : Num 37) = Panic.
Proof. split; vm_compute; reflexivity. Qed.
Lemma case_C49_from_bytes : Forall byte [1; 2; 255]%Z /\ match @from_binary_be bn_r [1; 2; 255]%Z with Ok a => nval a = 66303%Z | Panic => False end /\ @from_binary_be 37 [1]%Z = Panic.
Proof. split; [repeat constructor; unfold byte; lia|]. split; vm_compute; reflexivity. Qed.
Lemma case_C49_panics : Nat.eqb (num_bytes 37) (8 * num_limbs 37) = false /\ into_binary_be (num 5 : Num 37) = Panic.
Proof. split; vm_compute; reflexivity. Qed.
Lemma case_C49_other : match into_other bn_l (num (Zpos bn_l + 3) : Num bn_r) with Ok a => nval a = 3%Z | Panic => False end.
Proof. vm_compute. reflexivity. Qed.

(** ** The group: the curve over the field of 37 elements of C27_extended_case *)
Definition Q37 : EPoint 37 := mkE (num 8) (num 10).
Lemma case_C27_in_curve_exact : x_is_in_curve (num 2) (mkX (num 16) (num 20) (num 12) (num 2) : XPoint 37) = true /\
  x_is_in_curve (num 2) (mkX (num 16) (num 20) (num 13) (num 2) : XPoint 37) = false /\ x_is_in_curve (num 2) (mkX 0 0 0 0 : XPoint 37) = false.
Proof. split; [vm_compute; reflexivity|]. split; vm_compute; reflexivity. Qed.
Lemma case_C27_affine : is_square (- (1) : Num 37) /\ ~ is_square (num 2 : Num 37) /\ on_curve (num 2) Q37 /\
  match e_add (num 2) Q37 Q37, e_double Q37 with Ok A, Ok B => e_eqb A B && negb (e_eqb A Q37) | _, _ => false end = true.
Proof. pose proof case_C27_extended as [A [B [C _]]]. split; [exact A|]. split; [exact B|]. split; [exact C|]. vm_compute. reflexivity. Qed.
Lemma case_C28_group : on_curve (num 2) Q37 /\ Q37 <> mkE 0 1 /\ match e_add (num 2) Q37 (mkE (- ex Q37) (ey Q37)) with Ok A => e_is_zero A | Panic => false end = true.
Proof. pose proof case_C27_extended as [_ [_ [C _]]]. split; [exact C|]. split; [intros X; discriminate (f_equal (fun P => nval (ex P)) X)|]. vm_compute. reflexivity. Qed.
Lemma case_C29_mod_order : on_curve (num 2) Q37 /\ emul (num 2) 5 Q37 = mkE 0 1 /\ emul (num 2) 7 Q37 = emul (num 2) 2 Q37 /\ emul (num 2) 7 Q37 <> Q37.
Proof.
  pose proof case_C27_extended as [_ [_ [C _]]]. split; [exact C|]. split; [apply e_eqb_eq; vm_compute; reflexivity|]. split; [apply e_eqb_eq; vm_compute; reflexivity|].
  intros X. apply (f_equal (fun P => nval (ex P))) in X. revert X. vm_compute. discriminate.
Qed.
Lemma case_C31_get_for_y : match get_for_y sqrt_search (num 2) (num 10 : Num 37) false with Ok (Some P) => e_eqb P Q37 | _ => false end = true /\
  match get_for_y sqrt_search (num 2) (num 10 : Num 37) true with Ok (Some P) => e_eqb P (mkE (num 29) (num 10)) | _ => false end = true.
Proof. split; vm_compute; reflexivity. Qed.
Lemma case_C33_subgroup : jubjub_ok toy /\ x_is_in_subgroup 5 (jd toy) (e_into_extended (emul (jd toy) 3 (jg toy))) = true /\
  on_curve (jd toy) (mkE 0 (- (1))) /\ x_is_in_subgroup 5 (jd toy) (e_into_extended (mkE 0 (- (1)))) = false.
Proof. split; [exact toy_ok|]. split; [vm_compute; reflexivity|]. split; [apply e_is_in_curve_iff; vm_compute; reflexivity|]. vm_compute. reflexivity. Qed.
Add Ring num37_ring : (@num_ring 37).
(** Another square root: the other of the two *)
Lemma case_C34_unique : let s2 := fun a : Num 37 => option_map nneg (sqrt_search a) in
  (forall a, match s2 a with Some b => b * b = a | None => ~ is_square a end) /\
  (exists a, sqrt_search a <> s2 a) /\
  match from_scalar sqrt_search toy (num 3), from_scalar s2 toy (num 3) with Ok P, Ok Q => e_eqb P Q | _, _ => false end = true.
Proof.
  cbv zeta. split; [|split; [|vm_compute; reflexivity]].
  - intros a. pose proof (sqrt_search_ok _ a) as H. destruct (sqrt_search a) as [b|]; cbn [option_map]; auto. transitivity (b * b); [ring|exact H].
  - exists 1. vm_compute. discriminate.
Qed.
Lemma case_C30_from_montgomery : match e_into_montgomery Q37 with
  | Ok (Some M) => match m_into_affine M with Ok P => e_eqb P Q37 && negb (nis_zero (mx M)) | Panic => false end
  | _ => false
  end = true.
Proof. vm_compute. reflexivity. Qed.

(** ** Both curves of the library, with the square root found by search *)
Lemma curves : exists (J1 : JubJub bn_r bn_l) (J2 : JubJub bls_r bls_l), jubjub_bn sqrt_search = Ok J1 /\ jubjub_bls sqrt_search = Ok J2 /\ jubjub_ok J1 /\ jubjub_ok J2.
Proof.
  destruct jubjub_bn_ok as [J [K [_ [_ [_ [_ E]]]]]]. destruct jubjub_bls_ok as [J' [K' [_ [_ [_ [_ E']]]]]].
  exists J, J'. split; [apply E, sqrt_search_ok|]. split; [apply E', sqrt_search_ok|]. auto.
Qed.
Lemma case_C32_both_curves : (forall a : Num bn_r, match sqrt_search a with Some b => b * b = a | None => ~ is_square a end) /\
  (forall a : Num bls_r, match sqrt_search a with Some b => b * b = a | None => ~ is_square a end).
Proof. split; apply sqrt_search_ok. Qed.
Lemma case_C33_both_curves : exists (J1 : JubJub bn_r bn_l) (J2 : JubJub bls_r bls_l), jubjub_bn sqrt_search = Ok J1 /\ jubjub_bls sqrt_search = Ok J2 /\ jubjub_ok J1 /\ jubjub_ok J2.
Proof. exact curves. Qed.
Lemma case_C34_both_curves : exists J P, jubjub_bn sqrt_search = Ok J /\ from_scalar sqrt_search J (num 5) = Ok P /\ on_curve (jd J) P.
Proof.
  destruct (claim_C34_both_curves sqrt_search sqrt_search (sqrt_search_ok _) (sqrt_search_ok _)) as [[J [E [_ H]]] _].
  destruct (H (num 5)) as [P [H1 [H2 _]]]; [intros X; apply (f_equal nval) in X; revert X; vm_compute; discriminate|]. eauto.
Qed.
Lemma case_C63_edwards_g : exists (J1 : JubJub bn_r bn_l) (J2 : JubJub bls_r bls_l), jubjub_bn sqrt_search = Ok J1 /\ jubjub_bls sqrt_search = Ok J2.
Proof. destruct curves as [J1 [J2 [A [B _]]]]. eauto. Qed.
Lemma case_C63_bls_generator : (num 49 : Num bls_l) <> 0 /\ (num 49 : Num bls_l) = npow (num 7) 2.
Proof. split; [intros X; apply (f_equal nval) in X; revert X; vm_compute; discriminate|]. apply neqb_eq. vm_compute. reflexivity. Qed.

(** ** Signatures *)
Lemma case_C35_any_hash : exists (J : JubJub bn_r bn_l) s r A, jubjub_ok J /\ full_bytes bn_r && full_bytes bn_l = true /\
  let h := fun r a m : Num bn_r => Ok (r + a * m) in sign_with h J (num 7) (num 2) (num 1) = Ok (s, r) /\ verify_with h sqrt_search J s r (ex A) (num 1) = Ok true.
Proof.
  destruct curves as [J [_ [_ [_ [K _]]]]]. assert (F : full_bytes bn_r = true /\ full_bytes bn_l = true) by (split; vm_compute; reflexivity). destruct F as [F1 F2].
  destruct (claim_C35_any_hash _ _ J (fun r a m => r + a * m) sqrt_search (num 7) (num 2) (num 1) K (sqrt_search_ok _) F1 F2) as [s [r [A [H1 [_ H2]]]]].
  exists J, s, r, A. split; [exact K|]. split; [now rewrite F1, F2|]. split; [exact H1|exact H2].
Qed.
Lemma case_C35_both_curves : exists (J1 : JubJub bn_r bn_l) (J2 : JubJub bls_r bls_l), jubjub_bn sqrt_search = Ok J1 /\ jubjub_bls sqrt_search = Ok J2 /\
  pp_ok (@pp4 bn_r) /\ (4 <= ppt (@pp4 bn_r))%nat /\ pp_ok (@pp4 bls_r) /\ (4 <= ppt (@pp4 bls_r))%nat.
Proof. destruct curves as [J1 [J2 [A [B _]]]]. exists J1, J2. split; [exact A|]. split; [exact B|]. pose proof (pp4_ok bn_r) as [H1 H2]. pose proof (pp4_ok bls_r) as [H3 H4]. auto. Qed.
Lemma case_C36_any_hash : exists (J : JubJub bn_r bn_l) s r A, jubjub_ok J /\
  let h := fun r a m : Num bn_r => Ok (r + a * m) in verify_with h sqrt_search J s r (ex A) (num 1) = Ok true.
Proof. destruct case_C35_any_hash as [J [s [r [A [K [_ [_ H]]]]]]]. exists J, s, r, A. auto. Qed.
Lemma case_C36_unique_scalar : exists (J : JubJub bn_r bn_l) s r a, jubjub_ok J /\ eddsaposeidon_verify pp4 sqrt_search J s r a (num 1) = Ok true /\
  eddsaposeidon_verify pp4 sqrt_search J (s + 1) r a (num 1) <> Ok true.
Proof.
  destruct case_C67_message as [J [s [r [a [K [_ V]]]]]]. exists J, s, r, a. split; [exact K|]. split; [exact V|]. intros X.
  assert (F : full_bytes bn_r = true /\ full_bytes bn_l = true) by (split; vm_compute; reflexivity). destruct F as [F1 F2]. destruct (pp4_ok bn_r) as [HP HPt].
  exact (plus1_neq (j_l _ K) s (claim_C36_unique_scalar _ _ J pp4 sqrt_search (s + 1) s r a (num 1) K (sqrt_search_ok _) F1 F2 HP HPt X V)).
Qed.
Lemma case_C67_zero_key_circuit : exists J : JubJub bn_r bn_l, jubjub_ok J /\ (num_bits bn_l < num_bits bn_r)%nat /\ forall m,
  demo [num 5; ex (emul (jd J) 5 (jg J)); 0; m] (eddsa_gadget sqrt_search pp4 J (num 5) (ex (emul (jd J) 5 (jg J))) 0 m) (fun w out => ceval w out = 1).
Proof. destruct case_C67_zero_key as [J [K H]]. exists J. split; [exact K|]. split; [vm_compute; lia|]. intros m. apply (H m). Qed.
Lemma case_C68_both_curves : exists (J1 : JubJub bn_r bn_l) (J2 : JubJub bls_r bls_l), jubjub_bn sqrt_search = Ok J1 /\ jubjub_bls sqrt_search = Ok J2 /\
  pp_ok (@pp4 bn_r) /\ Forall (fun row => nth 0 row 0 <> 0) (ppm (@pp4 bn_r)) /\ (2 <= ppf (@pp4 bn_r))%nat /\ (4 <= ppt (@pp4 bn_r))%nat.
Proof. destruct curves as [J1 [J2 [A [B _]]]]. exists J1, J2. split; [exact A|]. split; [exact B|]. exact pp4_more. Qed.
Lemma case_C69_key : jubjub_ok toy /\ ex (emul (jd toy) 3 (jg toy)) <> ex (emul (jd toy) 2 (jg toy)).
Proof. split; [exact toy_ok|]. intros X. apply (f_equal nval) in X. revert X. vm_compute. discriminate. Qed.
(** Four signals and a library's parameters; what the theorems ask of them *)
Lemma signals {p} (Hp : prime (Zpos p)) (n : nat) : exists U (l : list (CNum p)), length l = n /\ In I0 U /\ Forall (owned U) l /\ Forall (fun c => as_const c = None) l /\ Forall blank l.
Proof.
  exists (I0 :: map Aux (seq 0 n)), (map (fun k => cvar None (Aux k)) (seq 0 n)). split; [now rewrite map_length, seq_length|]. split; [now left|].
  split; [|split]; apply Forall_forall; intros c H; apply in_map_iff in H as [k [<- H]].
  - apply owned_var; [exact Hp|]. right. now apply in_map.
  - reflexivity.
  - intros v X. discriminate.
Qed.
Lemma case_C44_verify : exists (J : JubJub bn_r bn_l) U l, jubjub_ok J /\ length l = 4%nat /\ In I0 U /\ Forall (owned U) l /\ Forall (fun c : CNum bn_r => as_const c = None) l /\
  pp_ok (@pp4 bn_r) /\ Forall (fun row => nth 0 row 0 <> 0) (ppm (@pp4 bn_r)) /\ (2 <= ppf (@pp4 bn_r))%nat /\ (4 <= ppt (@pp4 bn_r))%nat.
Proof.
  destruct curves as [J [_ [_ [_ [K _]]]]]. destruct (signals (j_p _ K) 4) as [U [l [H1 [H2 [H3 [H4 _]]]]]]. exists J, U, l.
  split; [exact K|]. split; [exact H1|]. split; [exact H2|]. split; [exact H3|]. split; [exact H4|]. exact pp4_more.
Qed.
(** Two runs with scalars that differ by the order *)
Lemma case_C45_malleable : exists (J : JubJub bn_r bn_l) (P : @PoseidonParams bn_r) (sqrt : Num bn_r -> option (Num bn_r)) (s s' r a m : Num bn_r),
  (nval s mod Zpos bn_l = nval s' mod Zpos bn_l)%Z /\ s <> s' /\
  demo [s; r; a; m] (eddsa_gadget sqrt P J s r a m) (fun w out => ceval w out = 1) /\
  demo [s'; r; a; m] (eddsa_gadget sqrt P J s' r a m) (fun w out => ceval w out = 1).
Proof.
  destruct claim_C45_canonical_s_refuted as [J [P [sqrt [s [s' [r [a [m [_ [_ [H1 [H2 [H3 H4]]]]]]]]]]]]]. exists J, P, sqrt, s, s', r, a, m.
  split; [rewrite H2; symmetry; rewrite <- (Z.mul_1_l (Zpos bn_l)) at 1; apply Z.mod_add; discriminate|].
  split; [intros ->; lia|]. auto.
Qed.
Lemma case_C61_eddsa_count : exists (J : JubJub bn_r bn_l) U l, jubjub_ok J /\ length l = 4%nat /\ In I0 U /\ Forall (owned U) l /\ Forall (fun c : CNum bn_r => as_const c = None) l /\ Forall blank l.
Proof. destruct curves as [J [_ [_ [_ [K _]]]]]. destruct (signals (j_p _ K) 4) as [U [l [H1 [H2 [H3 [H4 H5]]]]]]. exists J, U, l. auto 8. Qed.
Lemma case_C61_library : exists U l, length l = 4%nat /\ In I0 U /\ Forall (owned U) l /\ Forall (fun c : CNum bn_r => as_const c = None) l /\ Forall blank l.
Proof. destruct curves as [J [_ [_ [_ [K _]]]]]. exact (signals (j_p _ K) 4). Qed.
Lemma case_C61_readme_hashes : exists U l, length l = 68%nat /\ In I0 U /\ Forall (owned U) l /\ Forall (fun c : CNum bn_r => as_const c = None) l /\ Forall blank l.
Proof. destruct curves as [J [_ [_ [_ [K _]]]]]. exact (signals (j_p _ K) 68). Qed.
Lemma case_C42_zero_base : cp_as_const (cp_from_const (0 : Num 73) 1) = Some (0, 1) /\ ce_mul toy2 (cp_from_const 0 1) [v73 0 1] = Ret (cp_from_const 0 1).
Proof. split; [reflexivity|]. apply (claim_C42_zero_base 73 11 toy2 (cp_from_const 0 1)); [apply toy2_ok|reflexivity]. Qed.
Lemma case_C42_empty_panics : cp_as_const (cp_from_const (num 1 : Num 73) (num 56)) = Some (num 1, num 56) /\ insub toy2 (e73 1 56) /\ e73 1 56 <> mkE 0 1.
Proof. split; [reflexivity|]. split; [apply case_C41_mul|]. intros X. discriminate (f_equal (fun P => nval (ex P)) X). Qed.

(** ** Trees *)
Lemma case_C66_tree_binding : pp_ok P37 /\ (2 <= ppt P37)%nat /\ poseidon_merkle_tree_root P37 [num 22; num 9] = poseidon_merkle_tree_root P37 [num 2; num 29] /\ collision P37.
Proof.
  assert (E : poseidon_merkle_tree_root P37 [num 22; num 9] = poseidon_merkle_tree_root P37 [num 2; num 29]).
  { destruct (poseidon_merkle_tree_root P37 [num 22; num 9]) as [a|] eqn:A; [|exfalso; revert A; vm_compute; discriminate].
    destruct (poseidon_merkle_tree_root P37 [num 2; num 29]) as [b|] eqn:B; [|exfalso; revert B; vm_compute; discriminate].
    pose proof case_C66_proof_binding as [_ [_ [H1 H2]]]. rewrite A in H1. rewrite B in H2. cbn [hval] in *. f_equal. apply num_eq. now rewrite H1, H2. }
  split; [apply P37_ok|]. split; [cbn; lia|]. split; [exact E|].
  destruct (poseidon_merkle_tree_root P37 [num 22; num 9]) as [a|] eqn:A; [|exfalso; revert A; vm_compute; discriminate].
  destruct (claim_C66_tree_binding 37 p37 P37 [num 22; num 9] [num 2; num 29] a) as [X|X]; [apply P37_ok|cbn; lia|reflexivity|exact A|now rewrite <- E| |exact X].
  discriminate (f_equal (fun l => nval (nth 0 l 0)) X).
Qed.
Lemma case_C66_membership_circuit : let s1 := num (hval (poseidon P37 [num 22; num 9])) in let v := fun x i => cvar (Some x) (Aux i) : CNum 37 in
  (3 <= 2 ^ 2 < 2 * 3)%nat /\
  demo [num 5; num 0; s1; num 0; num 1] (c_poseidon_merkle_proof_root P37 (v (num 5) 0%nat) [v (num 0) 1%nat; v s1 2%nat] [v (num 0) 3%nat; v (num 1) 4%nat])
    (fun s r => hval (poseidon_merkle_tree_root P37 [num 22; num 9; num 5]) = nval (ceval s r)).
Proof.
  cbv zeta. split; [cbn; lia|].
  apply (demob_ok _ _ _ (fun s r => Z.eqb (hval (poseidon_merkle_tree_root P37 [num 22; num 9; num 5])) (nval (ceval s r)))); [intros s r; apply Z.eqb_eq|vm_compute; reflexivity].
Qed.
Lemma case_C84_line : exists U l, length l = 5%nat /\ In I0 U /\ Forall (owned U) l /\ Forall (fun c : CNum 37 => as_const c = None) l /\ pp_ok P37 /\ (2 <= ppt P37)%nat.
Proof. destruct (signals p37 5) as [U [l [H1 [H2 [H3 [H4 _]]]]]]. exists U, l. repeat (split; [assumption|]). split; [apply P37_ok|cbn; lia]. Qed.
Lemma case_C84_library : exists U l, length l = 5%nat /\ In I0 U /\ Forall (owned U) l /\ Forall (fun c : CNum bn_r => as_const c = None) l.
Proof. destruct curves as [J [_ [_ [_ [K _]]]]]. destruct (signals (j_p _ K) 5) as [U [l [H1 [H2 [H3 [H4 _]]]]]]. exists U, l. auto. Qed.

(** ** Random words *)
Lemma case_C59_words : exists ws s, draw32 true 9 sb_new = Ok (ws, s) /\ length ws = 9%nat.
Proof. destruct (claim_C59_stream true 9 ltac:(intros _; vm_compute; discriminate)) as [[s H] _]. eexists _, s. split; [exact H|]. now rewrite map_length, seq_length. Qed.
(** The limit is reached. *)
Lemma case_C59_overflow : exists n ws s, Z.of_nat n = (8 * (2 ^ 64 - 1))%Z /\ draw32 true n sb_new = Ok (ws, s).
Proof.
  set (z := (8 * (2 ^ 64 - 1))%Z). assert (Hz : (0 <= z)%Z) by (unfold z; lia).
  assert (Hz2 : (z <= 8 * (2 ^ 64 - 1))%Z) by (unfold z; lia). clearbody z.
  destruct (claim_C59_stream true (Z.to_nat z) ltac:(intros _; rewrite Z2Nat.id; assumption)) as [[s H] _]. eexists (Z.to_nat z), _, s. split; [now rewrite Z2Nat.id|exact H].
Qed.
Lemma case_C60_no_panic : (2 * Z.of_nat (num_limbs bn_r) * Z.of_nat ((8 + 54 + 4 * 4) * 64) <= 8 * (2 ^ 64 - 1))%Z.
Proof. vm_compute. discriminate. Qed.
Lemma case_C60_values : exists P : @PoseidonParams 13, pp_new 64 true 2 1 1 = Ok (Some P) /\ length (ppc P ++ concat (ppm P)) = 6%nat.
Proof. eexists. split; [vm_compute; reflexivity|]. reflexivity. Qed.
Lemma case_C60_deterministic : exists P P' : @PoseidonParams 13, pp_new 64 true 2 1 1 = Ok (Some P) /\ pp_new 70 true 2 1 1 = Ok (Some P').
Proof. eexists _, _. split; vm_compute; reflexivity. Qed.
Lemma case_C60_hash_defined : exists P : @PoseidonParams 13, pp_new 64 true 2 1 1 = Ok (Some P) /\ match poseidon P [num 3; num 4] with Ok _ => true | Panic => false end = true.
Proof. eexists. split; [vm_compute; reflexivity|]. vm_compute. reflexivity. Qed.
Lemma case_C70_parity : nis_odd (num 7 : Num 73) = true /\ nis_odd (- num 7 : Num 73) = false /\ Z.Odd 73.
Proof. split; [reflexivity|]. split; [vm_compute; reflexivity|]. now exists 36%Z. Qed.
Lemma case_C70_word : os_next_u32 (fun _ => Some [1; 2; 3; 4]%Z) 5 = Ok (16909060%Z, 6%nat).
Proof. vm_compute. reflexivity. Qed.
Lemma case_C70_uniform : Prime 73 /\ num_limbs 73 = 1%nat /\ num_bits 73 = 7%nat.
Proof. split; [apply case_C70_division|]. split; vm_compute; reflexivity. Qed.

(** ** Points, keys and the contract *)
Lemma case_C51_bn_roundtrip : nmul (ay gen1) (ay gen1) = nadd (nmul (nmul (ax gen1) (ax gen1)) (ax gen1)) (num 3) /\ bn_g1 (g1_data gen1) = Ok gen1 /\
  proof_valid (mkPf gen1 gen2 gen1) /\ bn_g1 (n0, n0) = Ok (mkAff n0 n0 true).
Proof.
  split; [apply neqb_eq; vm_compute; reflexivity|]. split; [apply case_C51_generator|]. split; [apply case_C75_near|]. vm_compute. reflexivity.
Qed.
Lemma case_C51_rejected : ~ (num 1 = n0 :> Num bn_q /\ num 3 = n0 :> Num bn_q) /\ nmul (num 3 : Num bn_q) (num 3) <> nadd (nmul (nmul (num 1) (num 1)) (num 1)) (num 3).
Proof. split; [intros [X _]|intros X]; apply (f_equal nval) in X; revert X; vm_compute; discriminate. Qed.
Lemma case_C51_proof_and_key : proof_valid (mkPf gen1 gen2 gen1) /\ key_valid (mkVK gen1 gen2 gen2 gen2 [gen1; gen1]).
Proof. split; apply case_C75_near. Qed.
Lemma case_C54_layout : g1_ser ((num 5, num 6) : G1Data 13) = [5; 0; 0; 0; 0; 0; 0; 0; 6; 0; 0; 0; 0; 0; 0; 0]%Z.
Proof. vm_compute. reflexivity. Qed.
Lemma case_C54_exact : @g1_de 13 [5; 0; 0; 0; 0; 0; 0; 0; 6; 0; 0; 0; 0; 0; 0; 0; 9]%Z = Some ((num 5, num 6), [9]%Z) /\
  @g1_de 13 [13; 0; 0; 0; 0; 0; 0; 0; 6; 0; 0; 0; 0; 0; 0; 0]%Z = None.
Proof. split; [|vm_compute; reflexivity]. vm_compute. repeat f_equal; apply num_eq; reflexivity. Qed.
Lemma case_C54_injective : g1_ser ((num 5, num 6) : G1Data 13) <> g1_ser ((num 6, num 5) : G1Data 13).
Proof. vm_compute. discriminate. Qed.
Lemma case_C53_expanded : let vk := mkVK (num 2 : eG1 toy_engine) (num 3 : eG2 toy_engine) (num 5 : eG2 toy_engine) (num 4 : eG2 toy_engine) [num 1; num 6] in
  is_pairing toy_engine (fun _ => True) (fun _ => True) (fun _ => True) nadd nneg nmul /\ key_ok (fun _ => True) (fun _ => True) vk /\ length [num 10 : Num 11] = length (tl (vk_ic vk)).
Proof. split; [exact toy_pairing|]. split; [apply case_C53_verify|reflexivity]. Qed.
Lemma case_C53_panic : let E := mkEngine (Num 251) (Num 251) (Num 251) nadd n0 nneg (fun g k => g * num k) (fun _ => n0) (fun _ => None) n0 neqb in
  (forall f, e_final E f = None) /\ verify E (mkVK (num 2) (num 3) (num 5) (num 4) [num 1; num 6]) (mkPf (num 1) (num 1) (num 3)) [num 10 : Num 11] = Panic.
Proof. split; reflexivity. Qed.
Lemma case_C55_read_exact : (0 < pc_size (toy_codec 2))%nat /\ codec_strict (toy_codec 2) /\ codec_strict (toy_codec 1) /\
  exists vk, tvk_read (toy_codec 2) (toy_codec 1) [1; 0; 2; 3; 4; 5; 0; 6; 0; 7]%Z = Some vk /\ map nval (vk_ic vk) = [5; 6]%Z.
Proof.
  split; [cbn; lia|]. split; [apply toy_codec_ok; lia|]. split; [apply toy_codec_ok; lia|]. eexists. split; vm_compute; reflexivity.
Qed.
Lemma case_C55_short : tvk_read (toy_codec 2) (toy_codec 1) [1; 0; 2; 3]%Z = None.
Proof. vm_compute. reflexivity. Qed.
Lemma case_C58_collect_option : sv_collect_option 2 [Some 5; Some 6]%Z = Ok (Some [5; 6]%Z) /\ sv_collect_option 2 [Some 5; None]%Z = Panic.
Proof. split; reflexivity. Qed.
Lemma case_C58_deserialize_unchecked : sv_deserialize 3 (fun s : list Z => Some s) (sv_serialize 3 (fun l => l) [5; 6]%Z) = Some [5; 6]%Z.
Proof. reflexivity. Qed.
Definition sol_key : VKData bn_q := mkVKD (num 1, num 2) ((num 3, num 4), (num 5, num 6)) ((num 7, num 8), (num 9, num 10)) ((num 11, num 12), (num 0, num 1)) [(num 2, num 3); (num 4, num 15)].
Lemma case_C64_no_placeholder : match generate_sol_data true sol_key with Ok out => Z.ltb 5500 (Z.of_nat (length out)) | Panic => false end = true.
Proof. vm_compute. reflexivity. Qed.
Lemma case_C64_empty : match generate_sol_data false (mkVKD (num 1, num 2) ((num 3, num 4), (num 5, num 6)) ((num 7, num 8), (num 9, num 10)) ((num 11, num 12), (num 0, num 1)) []) with Ok _ => true | Panic => false end = true.
Proof. vm_compute. reflexivity. Qed.
Lemma case_C64_decimal : dec 1203 = [49; 50; 48; 51]%Z /\ dec 0 = [48]%Z.
Proof. split; vm_compute; reflexivity. Qed.
(** The generator of the G1 of BLS12-381 *)
Lemma case_C51_bls_roundtrip : exists a, aff_pt a = bls_generator /\ bls_g1 (g1_data a) = Ok a /\ wmul (fq bls_q) bls_ord (aff_pt a) = None.
Proof.
  destruct claim_C77_order as [_ [_ [_ [_ [[a [H1 H2]] _]]]]]. exists a. split; [exact H2|].
  destruct (proj1 (proj2 (proj2 claim_C51_accepted)) _ _ H1) as [H3 [H4 _]]. rewrite H3. auto.
Qed.
Lemma case_C51_accepted : exists a, bls_g1 (g1_data a) = Ok a /\ ainf a = false.
Proof.
  destruct case_C51_bls_roundtrip as [a [H1 [H2 _]]]. exists a. split; [exact H2|]. unfold aff_pt in H1. destruct (ainf a); [discriminate|reflexivity].
Qed.
