(** Generated from CEccClaims.v by tools/genprops.py. *)
From Verif Require Import CEccClaims.
Open Scope num_scope.

Theorem C37_add : forall (p l : positive) (J : JubJub p l) (U : list Index) (P Q : CPoint p), jubjub_ok J ->
  In I0 U -> Forall (owned U) (coords P ++ coords Q) -> Forall (fun c => as_const c = None) (coords P ++ coords Q) ->
  let m := ce_add (jd J) P Q in
  sound_for U m (fun s R => on_curve (jd J) (cpe s P) /\ on_curve (jd J) (cpe s Q) ->
     cpe s R = eadd (jd J) (cpe s P) (cpe s Q) /\ e_add (jd J) (cpe s P) (cpe s Q) = Ok (cpe s R)) /\
  complete_for U m (fun s => Forall (valued s) (coords P ++ coords Q) /\ (on_curve (jd J) (cpe s P) /\ on_curve (jd J) (cpe s Q)))
    (fun s R => Forall (valued s) (coords R) /\
       cpe s R = eadd (jd J) (cpe s P) (cpe s Q) /\ e_add (jd J) (cpe s P) (cpe s Q) = Ok (cpe s R)) /\
  (Forall blank (coords P ++ coords Q) -> synth_for U m (fun k n R => Forall blank (coords R) /\
     (as_const (cadd_cap (px P) (py P)) = None -> as_const (cadd_cap (px Q) (py Q)) = None -> k = 6%nat /\ n = 6%nat))).
Proof. exact claim_C37_add. Qed.
Print Assumptions C37_add.

Theorem C37_double : forall (p l : positive) (J : JubJub p l) (U : list Index) (P : CPoint p), jubjub_ok J ->
  In I0 U -> Forall (owned U) (coords P) -> Forall (fun c => as_const c = None) (coords P) ->
  let m := ce_double (jd J) P in
  sound_for U m (fun s R => on_curve (jd J) (cpe s P) ->
     cpe s R = eadd (jd J) (cpe s P) (cpe s P) /\ e_double (cpe s P) = Ok (cpe s R)) /\
  complete_for U m (fun s => Forall (valued s) (coords P) /\ on_curve (jd J) (cpe s P))
    (fun s R => Forall (valued s) (coords R) /\
       cpe s R = eadd (jd J) (cpe s P) (cpe s P) /\ e_double (cpe s P) = Ok (cpe s R)) /\
  (Forall blank (coords P) -> synth_for U m (fun k n R => Forall blank (coords R) /\
     (as_const (cadd_cap (px P) (py P)) = None -> k = 5%nat /\ n = 5%nat))).
Proof. exact claim_C37_double. Qed.
Print Assumptions C37_double.

Theorem C37_cofactor : forall (p l : positive) (J : JubJub p l) (U : list Index) (P : CPoint p), jubjub_ok J ->
  In I0 U -> Forall (owned U) (coords P) -> Forall (fun c => as_const c = None) (coords P) ->
  let m := ce_mul_by_cofactor (jd J) P in
  sound_for U m (fun s R => on_curve (jd J) (cpe s P) ->
     cpe s R = emul (jd J) 8 (cpe s P) /\ e_mul_by_cofactor (cpe s P) = Ok (cpe s R)) /\
  complete_for U m (fun s => Forall (valued s) (coords P) /\ on_curve (jd J) (cpe s P))
    (fun s R => Forall (valued s) (coords R) /\
       cpe s R = emul (jd J) 8 (cpe s P) /\ e_mul_by_cofactor (cpe s P) = Ok (cpe s R)) /\
  (Forall blank (coords P) -> synth_for U m (fun k n R => Forall blank (coords R) /\
     (as_const (cadd_cap (px P) (py P)) = None -> k = 15%nat /\ n = 15%nat))).
Proof. exact claim_C37_cofactor. Qed.
Print Assumptions C37_cofactor.

Theorem C38_in_curve : forall (p l : positive) (J : JubJub p l) (U : list Index) (P : CPoint p), jubjub_ok J ->
  In I0 U -> Forall (owned U) (coords P) ->
  let m := ce_assert_in_curve (jd J) P in
  sound_for U m (fun s _ => on_curve (jd J) (cpe s P)) /\
  complete_for U m (fun s => Forall (valued s) (coords P) /\ on_curve (jd J) (cpe s P)) (fun s _ => on_curve (jd J) (cpe s P)) /\
  (Forall blank (coords P) -> synth_for U m (fun k n _ => Forall (fun c => as_const c = None) (coords P) -> k = 2%nat /\ n = 3%nat)).
Proof. exact claim_C38_in_curve. Qed.
Print Assumptions C38_in_curve.

Theorem C38_in_subgroup : forall (p l : positive) (J : JubJub p l) (U : list Index) (P : CPoint p), jubjub_ok J ->
  In I0 U -> Forall (owned U) (coords P) ->
  let m := ce_assert_in_subgroup l (jd J) P in
  sound_for U m (fun s _ => insub J (cpe s P)) /\
  complete_for U m (fun s => Forall (valued s) (coords P) /\ insub J (cpe s P)) (fun s _ => insub J (cpe s P)) /\
  (Exists (fun c => as_const c = None) (coords P) -> Forall blank (coords P) -> synth_for U m (fun k n _ => k = 19%nat /\ n = 20%nat)).
Proof. exact claim_C38_in_subgroup. Qed.
Print Assumptions C38_in_subgroup.

(** What the assertion means: the native test, and a multiple of the base point. *)
Theorem C38_subgroup_meaning : forall (p l : positive) (J : JubJub p l) (P : EPoint p), jubjub_ok J -> on_curve (jd J) P ->
  (insub J P <-> x_is_in_subgroup l (jd J) (e_into_extended P) = true) /\
  (insub J P <-> exists k, (0 <= k < Zpos l)%Z /\ P = emul (jd J) k (jg J)).
Proof. exact claim_C38_subgroup_meaning. Qed.
Print Assumptions C38_subgroup_meaning.

Theorem C39_decompress : forall (p l : positive) (J : JubJub p l) (sqrt : Num p -> option (Num p)) (U : list Index) (x : CNum p), jubjub_ok J ->
  (forall a, match sqrt a with Some b => b * b = a | None => ~ is_square a end) ->
  In I0 U -> owned U x -> as_const x = None ->
  let m := ce_subgroup_decompress sqrt J x in
  sound_for U m (fun s R => insub J (cpe s R) /\ ex (cpe s R) = ceval s x /\
    (forall Q, insub J Q -> ex Q = ceval s x -> Q = cpe s R) /\ subgroup_decompress sqrt l (jd J) (ceval s x) = Ok (Some (cpe s R))) /\
  complete_for U m (fun s => Forall (valued s) [x] /\ exists P, insub J P /\ ex P = ceval s x)
    (fun s R => Forall (valued s) (coords R) /\ insub J (cpe s R) /\ ex (cpe s R) = ceval s x /\
    (forall Q, insub J Q -> ex Q = ceval s x -> Q = cpe s R) /\ subgroup_decompress sqrt l (jd J) (ceval s x) = Ok (Some (cpe s R))) /\
  (Forall blank [x] -> synth_for U m (fun k n R => Forall blank (coords R) /\ k = 19%nat /\ n = 19%nat)).
Proof. exact claim_C39_decompress. Qed.
Print Assumptions C39_decompress.

(** No point of the subgroup has that x coordinate: the circuit has no
    satisfying assignment. *)
Theorem C39_unsatisfiable : forall (p l : positive) (J : JubJub p l) (sqrt : Num p -> option (Num p)) (U : list Index) (x : CNum p) s tr R, jubjub_ok J ->
  (forall a, match sqrt a with Some b => b * b = a | None => ~ is_square a end) ->
  In I0 U -> owned U x -> as_const x = None -> s I0 = 1 ->
  subgroup_decompress sqrt l (jd J) (ceval s x) = Ok None ->
  exec U (ce_subgroup_decompress sqrt J x) tr (Some R) -> ~ sat s tr.
Proof. exact claim_C39_unsatisfiable. Qed.
Print Assumptions C39_unsatisfiable.

Theorem C40_mul : forall (p l : positive) (J : JubJub p l) (U : list Index) (P : CPoint p) (bits : list (CBool p)) (bs : list bool), jubjub_ok J ->
  In I0 U -> Forall (owned U) (coords P ++ bits) -> Forall (fun c => as_const c = None) (coords P) ->
  Exists (fun b => as_const b <> Some 0) bits -> Forall (fun b => forall v, as_const b = Some v -> v = 0 \/ v = 1) bits ->
  let m := ce_mul J P bits in
  sound_for U m (fun s R => insub J (cpe s P) /\ ebits s bits bs ->
     cpe s R = emul (jd J) (bval bs) (cpe s P) /\ e_mul (jd J) (cpe s P) (num (bval bs) : Num l) = Ok (cpe s R)) /\
  complete_for U m (fun s => Forall (valued s) (coords P ++ bits) /\ insub J (cpe s P) /\ ebits s bits bs)
    (fun s R => Forall (valued s) (coords R) /\
     cpe s R = emul (jd J) (bval bs) (cpe s P) /\ e_mul (jd J) (cpe s P) (num (bval bs) : Num l) = Ok (cpe s R)) /\
  (Forall blank (coords P ++ bits) -> synth_for U m (fun k n R => Forall blank (coords R) /\
     (Forall (fun b => as_const b = None) bits -> k = (9 * length bits + 10)%nat /\ n = (9 * length bits + 10)%nat))).
Proof. exact claim_C40_mul. Qed.
Print Assumptions C40_mul.

Theorem C41_mul : forall (p l : positive) (J : JubJub p l) (U : list Index) (P : CPoint p) (x y : Num p) (bits : list (CBool p)) (bs : list bool), jubjub_ok J -> (8 < Zpos l)%Z ->
  In I0 U -> Forall (owned U) bits -> cp_as_const P = Some (x, y) -> insub J (mkE x y) -> free_bits bits ->
  let m := ce_mul J P bits in
  sound_for U m (fun s R => ebits s bits bs ->
     cpe s R = emul (jd J) (bval bs) (mkE x y) /\ e_mul (jd J) (mkE x y) (num (bval bs) : Num l) = Ok (cpe s R)) /\
  complete_for U m (fun s => Forall (valued s) bits /\ ebits s bits bs)
    (fun s R => Forall (valued s) (coords R) /\
     cpe s R = emul (jd J) (bval bs) (mkE x y) /\ e_mul (jd J) (mkE x y) (num (bval bs) : Num l) = Ok (cpe s R)) /\
  (Forall blank bits -> synth_for U m (fun k n R => Forall blank (coords R) /\ (n <= 6 * ((length bits + 2) / 3) + 5)%nat)).
Proof. exact claim_C41_mul. Qed.
Print Assumptions C41_mul.

(** The bits produced by the decomposition of a number meet the condition. *)
Theorem C41_number : forall (p l : positive) (J : JubJub p l) (U : list Index) (P : CPoint p) (x y : Num p) (c : CNum p) (n : nat), jubjub_ok J -> (8 < Zpos l)%Z ->
  In I0 U -> owned U c -> as_const c = None -> cp_as_const P = Some (x, y) -> insub J (mkE x y) -> (2 <= n)%nat -> (n < num_bits p)%nat ->
  let m := bits <-- c_into_bits_le c n ;; ce_mul J P bits in
  sound_for U m (fun s R => (nval (ceval s c) < 2 ^ Z.of_nat n)%Z /\ cpe s R = emul (jd J) (nval (ceval s c)) (mkE x y)) /\
  complete_for U m (fun s => Forall (valued s) [c] /\ (nval (ceval s c) < 2 ^ Z.of_nat n)%Z)
    (fun s R => Forall (valued s) (coords R) /\ (nval (ceval s c) < 2 ^ Z.of_nat n)%Z /\ cpe s R = emul (jd J) (nval (ceval s c)) (mkE x y)) /\
  (Forall blank [c] -> synth_for U m (fun _ _ R => Forall blank (coords R) /\ True)).
Proof. exact claim_C41_number. Qed.
Print Assumptions C41_number.

(** The zero point: the result is the constant zero whatever the bits. *)
Theorem C42_zero_base : forall (p l : positive) (J : JubJub p l) (P : CPoint p) (bits : list (CBool p)), Prime p ->
  cp_as_const P = Some (0, 1) -> ce_mul J P bits = Ret (cp_from_const 0 1).
Proof. exact claim_C42_zero_base. Qed.
Print Assumptions C42_zero_base.

Theorem C43_from_scalar : forall (p l : positive) (J : JubJub p l) (sqrt : Num p -> option (Num p)) (U : list Index) (t : CNum p), jubjub_ok J ->
  (4 <= num_bits p)%nat -> (forall a, match sqrt a with Some b => b * b = a | None => ~ is_square a end) ->
  In I0 U -> owned U t -> as_const t = None ->
  let m := ce_from_scalar sqrt J t in
  sound_for U m (fun s R => ceval s t <> - (1) /\ from_scalar sqrt J (ceval s t) = Ok (cpe s R)) /\
  complete_for U m (fun s => Forall (valued s) [t] /\ ceval s t <> - (1))
    (fun s R => Forall (valued s) (coords R) /\ ceval s t <> - (1) /\ from_scalar sqrt J (ceval s t) = Ok (cpe s R)) /\
  (Forall blank [t] -> synth_for U m (fun k n R => Forall blank (coords R) /\ k = @fs_vars p /\ n = @fs_cons p)).
Proof. exact claim_C43_from_scalar. Qed.
Print Assumptions C43_from_scalar.

Theorem C44_verify : forall (p l : positive) (J : JubJub p l) (P : @PoseidonParams p) (sqrt : Num p -> option (Num p)) (U : list Index) (sg r a m : CNum p),
  jubjub_ok J -> (8 < Zpos l)%Z -> (num_bits l < num_bits p)%nat -> full_bytes p = true -> full_bytes l = true ->
  (forall a, match sqrt a with Some b => b * b = a | None => ~ is_square a end) ->
  pp_ok P -> Forall (fun row => nth 0 row 0 <> 0) (ppm P) -> (2 <= ppf P)%nat -> (4 <= ppt P)%nat ->
  In I0 U -> Forall (owned U) [sg; r; a; m] -> Forall (fun c => as_const c = None) [sg; r; a; m] ->
  let dec s c := exists Q, insub J Q /\ ex Q = ceval s c in
  let res s out := (nval (ceval s sg) < 2 ^ Z.of_nat (num_bits l))%Z /\ dec s a /\ dec s r /\
    exists b, eddsaposeidon_verify P sqrt J (num (nval (ceval s sg)) : Num l) (ceval s r) (ceval s a) (ceval s m) = Ok b /\
              ceval s out = nbool b in
  let g := c_eddsaposeidon_verify sqrt P J sg r a m in
  sound_for U g res /\
  complete_for U g (fun s => Forall (valued s) [sg; r; a; m] /\ (nval (ceval s sg) < 2 ^ Z.of_nat (num_bits l))%Z /\ dec s a /\ dec s r)
    (fun s out => Forall (valued s) [out] /\ res s out) /\
  (Forall blank [sg; r; a; m] -> synth_for U g (fun _ _ out => Forall blank [out] /\ True)).
Proof. exact claim_C44_verify. Qed.
Print Assumptions C44_verify.

(** Whether a signature is accepted depends on s mod l only. *)
Theorem C45_malleable : forall (p l : positive) (J : JubJub p l) (P : @PoseidonParams p) (sqrt : Num p -> option (Num p)) (U : list Index) (sg r a m : CNum p) s s' tr tr' out out',
  jubjub_ok J -> (8 < Zpos l)%Z -> (num_bits l < num_bits p)%nat -> full_bytes p = true -> full_bytes l = true ->
  (forall a, match sqrt a with Some b => b * b = a | None => ~ is_square a end) ->
  pp_ok P -> Forall (fun row => nth 0 row 0 <> 0) (ppm P) -> (2 <= ppf P)%nat -> (4 <= ppt P)%nat ->
  In I0 U -> Forall (owned U) [sg; r; a; m] -> Forall (fun c => as_const c = None) [sg; r; a; m] ->
  let g := c_eddsaposeidon_verify sqrt P J sg r a m in
  s I0 = 1 -> s' I0 = 1 -> exec U g tr (Some out) -> sat s tr -> exec U g tr' (Some out') -> sat s' tr' ->
  ceval s r = ceval s' r -> ceval s a = ceval s' a -> ceval s m = ceval s' m ->
  (nval (ceval s sg) mod Zpos l = nval (ceval s' sg) mod Zpos l)%Z -> ceval s out = ceval s' out'.
Proof. exact claim_C45_malleable. Qed.
Print Assumptions C45_malleable.

Example C37_add_case : jubjub_ok toy2 /\ on_curve (jd toy2) (e73 1 56) /\ on_curve (jd toy2) (e73 19 68) /\
  demo [num 1; num 56; num 19; num 68] (ce_add (jd toy2) (p73 0 1 56) (p73 2 19 68)) (fun s R => cpe s R = eadd (jd toy2) (e73 1 56) (e73 19 68)) /\
  ncons (fst (run 4 (ce_add (jd toy2) (p73 0 1 56) (p73 2 19 68)))) = 6%nat.
Proof. exact case_C37_add. Qed.

Example C37_double_case : demo [num 1; num 56] (ce_double (jd toy2) (p73 0 1 56)) (fun s R => cpe s R = emul (jd toy2) 2 (e73 1 56)).
Proof. exact case_C37_double. Qed.

Example C37_cofactor_case : demo [num 1; num 56] (ce_mul_by_cofactor (jd toy2) (p73 0 1 56)) (fun s R => cpe s R = emul (jd toy2) 8 (e73 1 56)).
Proof. exact case_C37_cofactor. Qed.

Example C38_in_curve_case : demo [num 1; num 56] (ce_assert_in_curve (jd toy2) (p73 0 1 56)) (fun _ _ => True).
Proof. exact case_C38_in_curve. Qed.

Example C38_in_subgroup_case : insub toy2 (e73 1 56) /\ demo [num 1; num 56] (ce_assert_in_subgroup 11 (jd toy2) (p73 0 1 56)) (fun _ _ => True) /\
  ncons (fst (run 2 (ce_assert_in_subgroup 11 (jd toy2) (p73 0 1 56)))) = 20%nat.
Proof. exact case_C38_in_subgroup. Qed.

(** A point of the curve outside the subgroup: the honest values do not satisfy
    the constraints (no values do, by the theorem). *)
Example C38_subgroup_meaning_case : on_curve (jd toy2) (e73 0 72) /\ ~ insub toy2 (e73 0 72).
Proof. exact case_C38_subgroup_meaning. Qed.

Example C39_decompress_case : demo [num 19] (ce_subgroup_decompress sqrt_search toy2 (v73 0 19)) (fun s R => cpe s R = e73 19 68).
Proof. exact case_C39_decompress. Qed.

Example C39_unsatisfiable_case : match subgroup_decompress sqrt_search 11 (jd toy2) (num 2 : Num 73) with Ok None => true | _ => false end = true.
Proof. exact case_C39_unsatisfiable. Qed.

Example C40_mul_case : insub toy2 (e73 1 56) /\
  demo [num 1; num 56; num 1; num 0; num 1] (ce_mul toy2 (p73 0 1 56) [v73 2 1; v73 3 0; v73 4 1]) (fun s R => cpe s R = emul (jd toy2) 5 (e73 1 56)) /\
  demo [num 0; num 1; num 1; num 0; num 1] (ce_mul toy2 (p73 0 0 1) [v73 2 1; v73 3 0; v73 4 1]) (fun s R => cpe s R = e73 0 1) /\
  ncons (fst (run 5 (ce_mul toy2 (p73 0 1 56) [v73 2 1; v73 3 0; v73 4 1]))) = 37%nat.
Proof. exact case_C40_mul. Qed.

Example C41_mul_case : insub toy2 (e73 1 56) /\
  demo [num 1; num 0; num 1; num 1] (ce_mul toy2 (cp_from_const (num 1) (num 56)) [v73 0 1; v73 1 0; v73 2 1; v73 3 1]) (fun s R => cpe s R = emul (jd toy2) 13 (e73 1 56)).
Proof. exact case_C41_mul. Qed.

Example C41_number_case : demo [num 7] (bits <-- c_into_bits_le (v73 0 7) 4 ;; ce_mul toy2 (cp_from_const (num 1) (num 56)) bits) (fun s R => cpe s R = emul (jd toy2) 7 (e73 1 56)).
Proof. exact case_C41_number. Qed.

Example C43_from_scalar_case : demo [num 3] (ce_from_scalar sqrt_search toy2 (v73 0 3)) (fun s R => cpe s R = match from_scalar sqrt_search toy2 (num 3) with Ok P => P | Panic => e73 0 1 end) /\
  match from_scalar sqrt_search toy2 (num 3) with Ok P => negb (e_is_zero P) | Panic => false end = true.
Proof. exact case_C43_from_scalar. Qed.

(** One bit only: a run on non-constant input, with the constraints satisfied
    and a wrong result. *)
Theorem C41_one_bit_refuted : exists (p l : positive) (J : JubJub p l) (c : EPoint p) (bit : CBool p) (v : bool),
  jubjub_ok J /\ (8 < Zpos l)%Z /\ insub J c /\ as_const bit = None /\
  demo [nbool v] (ce_mul J (cp_from_const (ex c) (ey c)) [bit]) (fun s R => ceval s bit = nbool v /\ cpe s R <> emul (jd J) (bval [v]) c).
Proof. exact claim_C41_one_bit_refuted. Qed.
Print Assumptions C41_one_bit_refuted.

Theorem C42_const_bits_refuted : exists (p l : positive) (J : JubJub p l) (c : EPoint p) (bs : list bool),
  jubjub_ok J /\ insub J c /\ length bs = 4%nat /\
  demo [] (ce_mul J (cp_from_const (ex c) (ey c)) (map cbconst bs)) (fun s R => cpe s R <> emul (jd J) (bval bs) c).
Proof. exact claim_C42_const_bits_refuted. Qed.
Print Assumptions C42_const_bits_refuted.

(** An empty bit slice: a constant base other than zero panics. *)
Theorem C42_empty_panics : forall (p l : positive) (J : JubJub p l) (P : CPoint p) (x y : Num p), jubjub_ok J ->
  cp_as_const P = Some (x, y) -> insub J (mkE x y) -> mkE x y <> mkE 0 1 -> ce_mul J P [] = PPanic.
Proof. exact claim_C42_empty_panics. Qed.
Print Assumptions C42_empty_panics.

Theorem C44_every_input : forall (p l : positive) (J : JubJub p l) (P : @PoseidonParams p) (sqrt : Num p -> option (Num p)) (s r a m : Num p),
  jubjub_ok J -> (8 < Zpos l)%Z -> (num_bits l < num_bits p)%nat -> full_bytes p = true -> full_bytes l = true ->
  (forall a, match sqrt a with Some b => b * b = a | None => ~ is_square a end) ->
  pp_ok P -> Forall (fun row => nth 0 row 0 <> 0) (ppm P) -> (2 <= ppf P)%nat -> (4 <= ppt P)%nat ->
  (nval s < 2 ^ Z.of_nat (num_bits l))%Z -> (exists Q, insub J Q /\ ex Q = a) -> (exists Q, insub J Q /\ ex Q = r) ->
  exists b, eddsaposeidon_verify P sqrt J (num (nval s) : Num l) r a m = Ok b /\
    demo [s; r; a; m] (eddsa_gadget sqrt P J s r a m) (fun w out => ceval w out = nbool b).
Proof. exact claim_C44_every_input. Qed.
Print Assumptions C44_every_input.

(** On the bn256 curve: a signature the library makes is accepted by the
    circuit; with another scalar the circuit still has a run, and rejects. *)
Example C44_every_input_case : exists (J : JubJub bn_r bn_l) (s : Num bn_l) (r a : Num bn_r),
  let sqrt := sqrt_search in
  demo [num (nval s); r; a; num 1] (eddsa_gadget sqrt pp4 J (num (nval s)) r a (num 1)) (fun w out => ceval w out = 1) /\
  demo [num (nval (s + 1)); r; a; num 1] (eddsa_gadget sqrt pp4 J (num (nval (s + 1))) r a (num 1)) (fun w out => ceval w out = 0).
Proof. exact case_C44_every_input. Qed.

(** Both s and s + l are accepted (on the bn256 curve). *)
Theorem C45_canonical_s_refuted : exists (J : JubJub bn_r bn_l) (P : @PoseidonParams bn_r) (sqrt : Num bn_r -> option (Num bn_r)) (s s' r a m : Num bn_r),
  jubjub_bn sqrt = Ok J /\ (forall a, match sqrt a with Some b => b * b = a | None => ~ is_square a end) /\
  (nval s < Zpos bn_l)%Z /\ nval s' = (nval s + Zpos bn_l)%Z /\
  demo [s; r; a; m] (eddsa_gadget sqrt P J s r a m) (fun w out => ceval w out = 1) /\
  demo [s'; r; a; m] (eddsa_gadget sqrt P J s' r a m) (fun w out => ceval w out = 1).
Proof. exact claim_C45_canonical_s_refuted. Qed.
Print Assumptions C45_canonical_s_refuted.

(** Variable base; [9 n + 10] constraints for [n] non-constant bits: 2296 for 254 bits. *)
Theorem C61_ecmul_count : forall (p l : positive) (J : JubJub p l) (U : list Index) (P : CPoint p) (bits : list (CBool p)), jubjub_ok J ->
  In I0 U -> Forall (owned U) (coords P ++ bits) -> Forall (fun c => as_const c = None) (coords P ++ bits) -> bits <> [] ->
  Forall blank (coords P ++ bits) ->
  synth_for U (ce_mul J P bits) (fun _ n _ => n = (9 * length bits + 10)%nat /\ (length bits = 254%nat -> n = 2296%nat)).
Proof. exact claim_C61_ecmul_count. Qed.
Print Assumptions C61_ecmul_count.

(** Constant base, bits that are distinct variables. A window is regular when
    neither row of its table of multiples splits into two halves that differ by a
    constant; an irregular window costs less. 513 for 254 bits. *)
Theorem C61_ecmul_const_count : forall (p l : positive) (J : JubJub p l) (U : list Index) (P : CPoint p) (x y : Num p) (bits : list (CBool p)) (ids : list Index), jubjub_ok J -> (8 < Zpos l)%Z ->
  In I0 U -> Forall (owned U) bits -> Forall2 (fun b i => clc b = [(i, 1)]) bits ids -> NoDup ids -> ~ In I0 ids -> (2 <= length bits)%nat ->
  Forall blank bits -> cp_as_const P = Some (x, y) -> insub J (mkE x y) -> mkE x y <> mkE 0 1 ->
  synth_for U (ce_mul J P bits) (fun _ n _ => (n <= 6 * ((length bits + 2) / 3) + 5)%nat /\
    ((forall i, (i < (length bits + 2) / 3)%nat -> wnd J (emul (jd J) (8 ^ Z.of_nat i) (mkE x y))) ->
     (n + wshort (padding (length bits)) = 6 * ((length bits + 2) / 3) + 5)%nat /\ (length bits = 254%nat -> n = 513%nat))).
Proof. exact claim_C61_ecmul_const_count. Qed.
Print Assumptions C61_ecmul_const_count.

(** The signature verifier. *)
Theorem C61_eddsa_count : forall (p l : positive) (J : JubJub p l) (P : @PoseidonParams p) (sqrt : Num p -> option (Num p)) (U : list Index) (sg r a m : CNum p),
  jubjub_ok J -> (8 < Zpos l)%Z -> (num_bits l < num_bits p)%nat -> full_bytes p = true ->
  (forall a, match sqrt a with Some b => b * b = a | None => ~ is_square a end) ->
  pp_ok P -> Forall (fun row => nth 0 row 0 <> 0) (ppm P) -> (2 <= ppf P)%nat -> (4 <= ppt P)%nat ->
  In I0 U -> Forall (owned U) [sg; r; a; m] -> Forall (fun c => as_const c = None) [sg; r; a; m] -> Forall blank [sg; r; a; m] ->
  (forall i, (i < (num_bits l + 2) / 3)%nat -> wnd J (emul (jd J) (8 ^ Z.of_nat i) (jg J))) ->
  synth_for U (c_eddsaposeidon_verify sqrt P J sg r a m) (fun _ n _ => n = @eddsa_cons p l P /\
    (num_bits p = 254%nat -> num_bits l = 251%nat -> ppt P = 4%nat -> ppf P = 8%nat -> ppp P = 54%nat -> Z.of_nat n = 3866%Z)).
Proof. exact claim_C61_eddsa_count. Qed.
Print Assumptions C61_eddsa_count.

Example C61_ecmul_count_case : ncons (fst (run 5 (ce_mul toy2 (p73 0 1 56) [v73 2 1; v73 3 0; v73 4 1]))) = 37%nat.
Proof. exact case_C61_ecmul_count. Qed.

Example C61_ecmul_const_count_case : ncons (fst (run 4 (ce_mul toy2 (cp_from_const (num 1) (num 56)) [v73 0 1; v73 1 0; v73 2 1; v73 3 1]))) = 14%nat.
Proof. exact case_C61_ecmul_const_count. Qed.
