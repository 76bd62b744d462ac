(** Generated from CaseClaims.v by tools/genprops.py. *)
From Verif Require Import CaseClaims.
Open Scope num_scope.

(** ** Conversions *)
Example C46_minimum_case : (2 ^ 65 < Zpos bn_r)%Z /\ @from_i64 bn_r true (- 2 ^ 63) = Panic /\ @from_i64 bn_r false (- 2 ^ 63) = Ok (num (- 2 ^ 63)) /\
  @from_i32 bn_r true (- 2 ^ 31) = Panic.
Proof. exact case_C46_minimum. Qed.

Example C46_bool_case : (1 < 13)%Z /\ into_bool (num 1 : Num 13) = Ok true /\ into_bool (num 0 : Num 13) = Ok false /\ into_bool (num 2 : Num 13) = Panic.
Proof. exact case_C46_bool. Qed.

Example C46_biguint_case : Nat.eqb (num_bytes bn_r) (8 * num_limbs bn_r) = true /\ into_biguint (num (2 ^ 200 + 5) : Num bn_r) = Ok (2 ^ 200 + 5)%Z.
Proof. exact case_C46_biguint. Qed.

Example C47_roundtrip_case : @borsh_de 37 (borsh_ser (num 22 : Num 37) ++ [7; 8]%Z) = Some (num 22, [7; 8]%Z) /\ borsh_ser (num 22 : Num 37) = [22; 0; 0; 0; 0; 0; 0; 0]%Z.
Proof. exact case_C47_roundtrip. Qed.

Example C47_injective_case : borsh_ser (num 22 : Num 37) <> borsh_ser (num 23 : Num 37).
Proof. exact case_C47_injective. Qed.

Example C48_roundtrip_case : Nat.eqb (num_bytes bn_r) (8 * num_limbs bn_r) = true /\ num_to_string (num 407 : Num bn_r) = Ok [52; 48; 55]%Z /\
  num_deserialize [52; 48; 55]%Z = Ok (Some (num 407 : Num bn_r)).
Proof. exact case_C48_roundtrip. Qed.

Example C48_exact_case : @num_deserialize bn_r [52; 120]%Z = Ok None /\
  @num_deserialize bn_r (dec (Zpos bn_r)) = Ok None /\ match @num_deserialize bn_r (dec (Zpos bn_r - 1)) with Ok (Some a) => nval a = (Zpos bn_r - 1)%Z | _ => False end.
Proof. exact case_C48_exact. Qed.

Example C48_not_injective_case : Nat.eqb (num_bytes bn_r) (8 * num_limbs bn_r) = true /\ (7 < Zpos bn_r)%Z.
Proof. exact case_C48_not_injective. Qed.

Example C48_other_fields_case : Nat.eqb (num_bytes 37) (8 * num_limbs 37) = false /\ num_to_string (num 5 : Num 37) = Panic.
Proof. exact case_C48_other_fields. Qed.

Example C49_from_bytes_case : Forall byte [1; 2; 255]%Z /\ match @from_binary_be bn_r [1; 2; 255]%Z with Ok a => nval a = 66303%Z | Panic => False end /\ @from_binary_be 37 [1]%Z = Panic.
Proof. exact case_C49_from_bytes. Qed.

Example C49_panics_case : Nat.eqb (num_bytes 37) (8 * num_limbs 37) = false /\ into_binary_be (num 5 : Num 37) = Panic.
Proof. exact case_C49_panics. Qed.

Example C49_other_case : match into_other bn_l (num (Zpos bn_l + 3) : Num bn_r) with Ok a => nval a = 3%Z | Panic => False end.
Proof. exact case_C49_other. Qed.

Example C27_in_curve_exact_case : x_is_in_curve (num 2) (mkX (num 16) (num 20) (num 12) (num 2) : XPoint 37) = true /\
  x_is_in_curve (num 2) (mkX (num 16) (num 20) (num 13) (num 2) : XPoint 37) = false /\ x_is_in_curve (num 2) (mkX 0 0 0 0 : XPoint 37) = false.
Proof. exact case_C27_in_curve_exact. Qed.

Example C27_affine_case : is_square (- (1) : Num 37) /\ ~ is_square (num 2 : Num 37) /\ on_curve (num 2) Q37 /\
  match e_add (num 2) Q37 Q37, e_double Q37 with Ok A, Ok B => e_eqb A B && negb (e_eqb A Q37) | _, _ => false end = true.
Proof. exact case_C27_affine. Qed.

Example C28_group_case : on_curve (num 2) Q37 /\ Q37 <> mkE 0 1 /\ match e_add (num 2) Q37 (mkE (- ex Q37) (ey Q37)) with Ok A => e_is_zero A | Panic => false end = true.
Proof. exact case_C28_group. Qed.

Example C29_mod_order_case : on_curve (num 2) Q37 /\ emul (num 2) 5 Q37 = mkE 0 1 /\ emul (num 2) 7 Q37 = emul (num 2) 2 Q37 /\ emul (num 2) 7 Q37 <> Q37.
Proof. exact case_C29_mod_order. Qed.

Example C31_get_for_y_case : match get_for_y sqrt_search (num 2) (num 10 : Num 37) false with Ok (Some P) => e_eqb P Q37 | _ => false end = true /\
  match get_for_y sqrt_search (num 2) (num 10 : Num 37) true with Ok (Some P) => e_eqb P (mkE (num 29) (num 10)) | _ => false end = true.
Proof. exact case_C31_get_for_y. Qed.

Example C33_subgroup_case : jubjub_ok toy /\ x_is_in_subgroup 5 (jd toy) (e_into_extended (emul (jd toy) 3 (jg toy))) = true /\
  on_curve (jd toy) (mkE 0 (- (1))) /\ x_is_in_subgroup 5 (jd toy) (e_into_extended (mkE 0 (- (1)))) = false.
Proof. exact case_C33_subgroup. Qed.

(** Another square root: the other of the two *)
Example C34_unique_case : let s2 := fun a : Num 37 => option_map nneg (sqrt_search a) in
  (forall a, match s2 a with Some b => b * b = a | None => ~ is_square a end) /\
  (exists a, sqrt_search a <> s2 a) /\
  match from_scalar sqrt_search toy (num 3), from_scalar s2 toy (num 3) with Ok P, Ok Q => e_eqb P Q | _, _ => false end = true.
Proof. exact case_C34_unique. Qed.

Example C30_from_montgomery_case : match e_into_montgomery Q37 with
  | Ok (Some M) => match m_into_affine M with Ok P => e_eqb P Q37 && negb (nis_zero (mx M)) | Panic => false end
  | _ => false
  end = true.
Proof. exact case_C30_from_montgomery. Qed.

Example C32_both_curves_case : (forall a : Num bn_r, match sqrt_search a with Some b => b * b = a | None => ~ is_square a end) /\
  (forall a : Num bls_r, match sqrt_search a with Some b => b * b = a | None => ~ is_square a end).
Proof. exact case_C32_both_curves. Qed.

Example C33_both_curves_case : exists (J1 : JubJub bn_r bn_l) (J2 : JubJub bls_r bls_l), jubjub_bn sqrt_search = Ok J1 /\ jubjub_bls sqrt_search = Ok J2 /\ jubjub_ok J1 /\ jubjub_ok J2.
Proof. exact case_C33_both_curves. Qed.

Example C34_both_curves_case : exists J P, jubjub_bn sqrt_search = Ok J /\ from_scalar sqrt_search J (num 5) = Ok P /\ on_curve (jd J) P.
Proof. exact case_C34_both_curves. Qed.

Example C63_edwards_g_case : exists (J1 : JubJub bn_r bn_l) (J2 : JubJub bls_r bls_l), jubjub_bn sqrt_search = Ok J1 /\ jubjub_bls sqrt_search = Ok J2.
Proof. exact case_C63_edwards_g. Qed.

Example C63_bls_generator_case : (num 49 : Num bls_l) <> 0 /\ (num 49 : Num bls_l) = npow (num 7) 2.
Proof. exact case_C63_bls_generator. Qed.

(** ** Signatures *)
Example C35_any_hash_case : exists (J : JubJub bn_r bn_l) s r A, jubjub_ok J /\ full_bytes bn_r && full_bytes bn_l = true /\
  let h := fun r a m : Num bn_r => Ok (r + a * m) in sign_with h J (num 7) (num 2) (num 1) = Ok (s, r) /\ verify_with h sqrt_search J s r (ex A) (num 1) = Ok true.
Proof. exact case_C35_any_hash. Qed.

Example C35_both_curves_case : exists (J1 : JubJub bn_r bn_l) (J2 : JubJub bls_r bls_l), jubjub_bn sqrt_search = Ok J1 /\ jubjub_bls sqrt_search = Ok J2 /\
  pp_ok (@pp4 bn_r) /\ (4 <= ppt (@pp4 bn_r))%nat /\ pp_ok (@pp4 bls_r) /\ (4 <= ppt (@pp4 bls_r))%nat.
Proof. exact case_C35_both_curves. Qed.

Example C36_any_hash_case : exists (J : JubJub bn_r bn_l) s r A, jubjub_ok J /\
  let h := fun r a m : Num bn_r => Ok (r + a * m) in verify_with h sqrt_search J s r (ex A) (num 1) = Ok true.
Proof. exact case_C36_any_hash. Qed.

Example C36_unique_scalar_case : exists (J : JubJub bn_r bn_l) s r a, jubjub_ok J /\ eddsaposeidon_verify pp4 sqrt_search J s r a (num 1) = Ok true /\
  eddsaposeidon_verify pp4 sqrt_search J (s + 1) r a (num 1) <> Ok true.
Proof. exact case_C36_unique_scalar. Qed.

Example C67_zero_key_circuit_case : exists J : JubJub bn_r bn_l, jubjub_ok J /\ (num_bits bn_l < num_bits bn_r)%nat /\ forall m,
  demo [num 5; ex (emul (jd J) 5 (jg J)); 0; m] (eddsa_gadget sqrt_search pp4 J (num 5) (ex (emul (jd J) 5 (jg J))) 0 m) (fun w out => ceval w out = 1).
Proof. exact case_C67_zero_key_circuit. Qed.

Example C68_both_curves_case : exists (J1 : JubJub bn_r bn_l) (J2 : JubJub bls_r bls_l), jubjub_bn sqrt_search = Ok J1 /\ jubjub_bls sqrt_search = Ok J2 /\
  pp_ok (@pp4 bn_r) /\ Forall (fun row => nth 0 row 0 <> 0) (ppm (@pp4 bn_r)) /\ (2 <= ppf (@pp4 bn_r))%nat /\ (4 <= ppt (@pp4 bn_r))%nat.
Proof. exact case_C68_both_curves. Qed.

Example C69_key_case : jubjub_ok toy /\ ex (emul (jd toy) 3 (jg toy)) <> ex (emul (jd toy) 2 (jg toy)).
Proof. exact case_C69_key. Qed.

Example C44_verify_case : exists (J : JubJub bn_r bn_l) U l, jubjub_ok J /\ length l = 4%nat /\ In I0 U /\ Forall (owned U) l /\ Forall (fun c : CNum bn_r => as_const c = None) l /\
  pp_ok (@pp4 bn_r) /\ Forall (fun row => nth 0 row 0 <> 0) (ppm (@pp4 bn_r)) /\ (2 <= ppf (@pp4 bn_r))%nat /\ (4 <= ppt (@pp4 bn_r))%nat.
Proof. exact case_C44_verify. Qed.

(** Two runs with scalars that differ by the order *)
Example C45_malleable_case : exists (J : JubJub bn_r bn_l) (P : @PoseidonParams bn_r) (sqrt : Num bn_r -> option (Num bn_r)) (s s' r a m : Num bn_r),
  (nval s mod Zpos bn_l = nval s' mod Zpos bn_l)%Z /\ s <> s' /\
  demo [s; r; a; m] (eddsa_gadget sqrt P J s r a m) (fun w out => ceval w out = 1) /\
  demo [s'; r; a; m] (eddsa_gadget sqrt P J s' r a m) (fun w out => ceval w out = 1).
Proof. exact case_C45_malleable. Qed.

Example C61_eddsa_count_case : exists (J : JubJub bn_r bn_l) U l, jubjub_ok J /\ length l = 4%nat /\ In I0 U /\ Forall (owned U) l /\ Forall (fun c : CNum bn_r => as_const c = None) l /\ Forall blank l.
Proof. exact case_C61_eddsa_count. Qed.

Example C61_library_case : exists U l, length l = 4%nat /\ In I0 U /\ Forall (owned U) l /\ Forall (fun c : CNum bn_r => as_const c = None) l /\ Forall blank l.
Proof. exact case_C61_library. Qed.

Example C61_readme_hashes_case : exists U l, length l = 68%nat /\ In I0 U /\ Forall (owned U) l /\ Forall (fun c : CNum bn_r => as_const c = None) l /\ Forall blank l.
Proof. exact case_C61_readme_hashes. Qed.

Example C42_zero_base_case : cp_as_const (cp_from_const (0 : Num 73) 1) = Some (0, 1) /\ ce_mul toy2 (cp_from_const 0 1) [v73 0 1] = Ret (cp_from_const 0 1).
Proof. exact case_C42_zero_base. Qed.

Example C42_empty_panics_case : cp_as_const (cp_from_const (num 1 : Num 73) (num 56)) = Some (num 1, num 56) /\ insub toy2 (e73 1 56) /\ e73 1 56 <> mkE 0 1.
Proof. exact case_C42_empty_panics. Qed.

(** ** Trees *)
Example C66_tree_binding_case : pp_ok P37 /\ (2 <= ppt P37)%nat /\ poseidon_merkle_tree_root P37 [num 22; num 9] = poseidon_merkle_tree_root P37 [num 2; num 29] /\ collision P37.
Proof. exact case_C66_tree_binding. Qed.

Example C66_membership_circuit_case : let s1 := num (hval (poseidon P37 [num 22; num 9])) in let v := fun x i => cvar (Some x) (Aux i) : CNum 37 in
  (3 <= 2 ^ 2 < 2 * 3)%nat /\
  demo [num 5; num 0; s1; num 0; num 1] (c_poseidon_merkle_proof_root P37 (v (num 5) 0%nat) [v (num 0) 1%nat; v s1 2%nat] [v (num 0) 3%nat; v (num 1) 4%nat])
    (fun s r => hval (poseidon_merkle_tree_root P37 [num 22; num 9; num 5]) = nval (ceval s r)).
Proof. exact case_C66_membership_circuit. Qed.

Example C84_line_case : exists U l, length l = 5%nat /\ In I0 U /\ Forall (owned U) l /\ Forall (fun c : CNum 37 => as_const c = None) l /\ pp_ok P37 /\ (2 <= ppt P37)%nat.
Proof. exact case_C84_line. Qed.

Example C84_library_case : exists U l, length l = 5%nat /\ In I0 U /\ Forall (owned U) l /\ Forall (fun c : CNum bn_r => as_const c = None) l.
Proof. exact case_C84_library. Qed.

(** ** Random words *)
Example C59_words_case : exists ws s, draw32 true 9 sb_new = Ok (ws, s) /\ length ws = 9%nat.
Proof. exact case_C59_words. Qed.

(** The limit is reached. *)
Example C59_overflow_case : exists n ws s, Z.of_nat n = (8 * (2 ^ 64 - 1))%Z /\ draw32 true n sb_new = Ok (ws, s).
Proof. exact case_C59_overflow. Qed.

Example C60_no_panic_case : (2 * Z.of_nat (num_limbs bn_r) * Z.of_nat ((8 + 54 + 4 * 4) * 64) <= 8 * (2 ^ 64 - 1))%Z.
Proof. exact case_C60_no_panic. Qed.

Example C60_values_case : exists P : @PoseidonParams 13, pp_new 64 true 2 1 1 = Ok (Some P) /\ length (ppc P ++ concat (ppm P)) = 6%nat.
Proof. exact case_C60_values. Qed.

Example C60_deterministic_case : exists P P' : @PoseidonParams 13, pp_new 64 true 2 1 1 = Ok (Some P) /\ pp_new 70 true 2 1 1 = Ok (Some P').
Proof. exact case_C60_deterministic. Qed.

Example C60_hash_defined_case : exists P : @PoseidonParams 13, pp_new 64 true 2 1 1 = Ok (Some P) /\ match poseidon P [num 3; num 4] with Ok _ => true | Panic => false end = true.
Proof. exact case_C60_hash_defined. Qed.

Example C70_parity_case : nis_odd (num 7 : Num 73) = true /\ nis_odd (- num 7 : Num 73) = false /\ Z.Odd 73.
Proof. exact case_C70_parity. Qed.

Example C70_word_case : os_next_u32 (fun _ => Some [1; 2; 3; 4]%Z) 5 = Ok (16909060%Z, 6%nat).
Proof. exact case_C70_word. Qed.

Example C70_uniform_case : Prime 73 /\ num_limbs 73 = 1%nat /\ num_bits 73 = 7%nat.
Proof. exact case_C70_uniform. Qed.

(** ** Points, keys and the contract *)
Example C51_bn_roundtrip_case : nmul (ay gen1) (ay gen1) = nadd (nmul (nmul (ax gen1) (ax gen1)) (ax gen1)) (num 3) /\ bn_g1 (g1_data gen1) = Ok gen1 /\
  proof_valid (mkPf gen1 gen2 gen1) /\ bn_g1 (n0, n0) = Ok (mkAff n0 n0 true).
Proof. exact case_C51_bn_roundtrip. Qed.

Example C51_rejected_case : ~ (num 1 = n0 :> Num bn_q /\ num 3 = n0 :> Num bn_q) /\ nmul (num 3 : Num bn_q) (num 3) <> nadd (nmul (nmul (num 1) (num 1)) (num 1)) (num 3).
Proof. exact case_C51_rejected. Qed.

Example C51_proof_and_key_case : proof_valid (mkPf gen1 gen2 gen1) /\ key_valid (mkVK gen1 gen2 gen2 gen2 [gen1; gen1]).
Proof. exact case_C51_proof_and_key. Qed.

Example C54_layout_case : g1_ser ((num 5, num 6) : G1Data 13) = [5; 0; 0; 0; 0; 0; 0; 0; 6; 0; 0; 0; 0; 0; 0; 0]%Z.
Proof. exact case_C54_layout. Qed.

Example C54_exact_case : @g1_de 13 [5; 0; 0; 0; 0; 0; 0; 0; 6; 0; 0; 0; 0; 0; 0; 0; 9]%Z = Some ((num 5, num 6), [9]%Z) /\
  @g1_de 13 [13; 0; 0; 0; 0; 0; 0; 0; 6; 0; 0; 0; 0; 0; 0; 0]%Z = None.
Proof. exact case_C54_exact. Qed.

Example C54_injective_case : g1_ser ((num 5, num 6) : G1Data 13) <> g1_ser ((num 6, num 5) : G1Data 13).
Proof. exact case_C54_injective. Qed.

Example C53_expanded_case : let vk := mkVK (num 2 : eG1 toy_engine) (num 3 : eG2 toy_engine) (num 5 : eG2 toy_engine) (num 4 : eG2 toy_engine) [num 1; num 6] in
  is_pairing toy_engine (fun _ => True) (fun _ => True) (fun _ => True) nadd nneg nmul /\ key_ok (fun _ => True) (fun _ => True) vk /\ length [num 10 : Num 11] = length (tl (vk_ic vk)).
Proof. exact case_C53_expanded. Qed.

Example C53_panic_case : let E := mkEngine (Num 251) (Num 251) (Num 251) nadd n0 nneg (fun g k => g * num k) (fun _ => n0) (fun _ => None) n0 neqb in
  (forall f, e_final E f = None) /\ verify E (mkVK (num 2) (num 3) (num 5) (num 4) [num 1; num 6]) (mkPf (num 1) (num 1) (num 3)) [num 10 : Num 11] = Panic.
Proof. exact case_C53_panic. Qed.

Example C55_read_exact_case : (0 < pc_size (toy_codec 2))%nat /\ codec_strict (toy_codec 2) /\ codec_strict (toy_codec 1) /\
  exists vk, tvk_read (toy_codec 2) (toy_codec 1) [1; 0; 2; 3; 4; 5; 0; 6; 0; 7]%Z = Some vk /\ map nval (vk_ic vk) = [5; 6]%Z.
Proof. exact case_C55_read_exact. Qed.

Example C55_short_case : tvk_read (toy_codec 2) (toy_codec 1) [1; 0; 2; 3]%Z = None.
Proof. exact case_C55_short. Qed.

Example C58_collect_option_case : sv_collect_option 2 [Some 5; Some 6]%Z = Ok (Some [5; 6]%Z) /\ sv_collect_option 2 [Some 5; None]%Z = Panic.
Proof. exact case_C58_collect_option. Qed.

Example C58_deserialize_unchecked_case : sv_deserialize 3 (fun s : list Z => Some s) (sv_serialize 3 (fun l => l) [5; 6]%Z) = Some [5; 6]%Z.
Proof. exact case_C58_deserialize_unchecked. Qed.

Example C64_no_placeholder_case : match generate_sol_data true sol_key with Ok out => Z.ltb 5500 (Z.of_nat (length out)) | Panic => false end = true.
Proof. exact case_C64_no_placeholder. Qed.

Example C64_empty_case : match generate_sol_data false (mkVKD (num 1, num 2) ((num 3, num 4), (num 5, num 6)) ((num 7, num 8), (num 9, num 10)) ((num 11, num 12), (num 0, num 1)) []) with Ok _ => true | Panic => false end = true.
Proof. exact case_C64_empty. Qed.

Example C64_decimal_case : dec 1203 = [49; 50; 48; 51]%Z /\ dec 0 = [48]%Z.
Proof. exact case_C64_decimal. Qed.

(** The generator of the G1 of BLS12-381 *)
Example C51_bls_roundtrip_case : exists a, aff_pt a = bls_generator /\ bls_g1 (g1_data a) = Ok a /\ wmul (fq bls_q) bls_ord (aff_pt a) = None.
Proof. exact case_C51_bls_roundtrip. Qed.

Example C51_accepted_case : exists a, bls_g1 (g1_data a) = Ok a /\ ainf a = false.
Proof. exact case_C51_accepted. Qed.
