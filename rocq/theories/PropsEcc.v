(** Generated from EccClaims.v by tools/genprops.py. *)
From Verif Require Import EccClaims.
Open Scope num_scope.

(** [xok d X]: Z <> 0, Z T = X Y and (X/Z, Y/Z) is on the curve; [eadd] is the affine law. *)
Theorem C27_extended : forall (p : positive), Prime p ->
 forall (d : Num p) (X Y : XPoint p), is_square (- (1) : Num p) -> ~ is_square d ->
  (xz X <> 0 /\ xz X * xt X = xx X * xy X /\ on_curve d (mkE (xx X / xz X) (xy X / xz X))) ->
  (xz Y <> 0 /\ xz Y * xt Y = xx Y * xy Y /\ on_curve d (mkE (xx Y / xz Y) (xy Y / xz Y))) ->
  (xok d (x_add d X Y) /\ aff (x_add d X Y) = eadd d (aff X) (aff Y)) /\
  (xok d (x_double X) /\ aff (x_double X) = eadd d (aff X) (aff X)) /\
  (xok d (x_negate X) /\ aff (x_negate X) = mkE (- ex (aff X)) (ey (aff X))) /\
  (xok d (x_mul_by_cofactor X) /\ aff (x_mul_by_cofactor X) = emul d 8 (aff X)) /\
  x_into_affine X = Ok (mkE (xx X / xz X) (xy X / xz X)) /\
  (x_eqb X Y = true <-> aff X = aff Y) /\
  (x_is_zero X = true <-> aff X = mkE 0 1) /\
  x_is_in_curve d X = true.
Proof. exact claim_C27_extended. Qed.
Print Assumptions C27_extended.

Theorem C27_in_curve_exact : forall (p : positive), Prime p ->
 forall (d : Num p) (X : XPoint p), is_square (- (1) : Num p) -> ~ is_square d ->
  (x_is_in_curve d X = true <-> xz X <> 0 /\ xz X * xt X = xx X * xy X /\ on_curve d (mkE (xx X / xz X) (xy X / xz X))).
Proof. exact claim_C27_in_curve_exact. Qed.
Print Assumptions C27_in_curve_exact.

(** The affine wrappers: no panic on curve points, and the affine law. *)
Theorem C27_affine : forall (p : positive), Prime p ->
 forall (d : Num p) (P Q : EPoint p), is_square (- (1) : Num p) -> ~ is_square d ->
  on_curve d P -> on_curve d Q ->
  e_add d P Q = Ok (mkE ((ex P * ey Q + ey P * ex Q) / (1 + d * ex P * ex Q * ey P * ey Q))
                        ((ey P * ey Q + ex P * ex Q) / (1 - d * ex P * ex Q * ey P * ey Q))) /\
  e_double P = Ok (eadd d P P) /\ e_mul_by_cofactor P = Ok (emul d 8 P) /\
  1 + d * ex P * ex Q * ey P * ey Q <> 0 /\ 1 - d * ex P * ex Q * ey P * ey Q <> 0.
Proof. exact claim_C27_affine. Qed.
Print Assumptions C27_affine.

Theorem C28_group : forall (p : positive), Prime p ->
 forall d : Num p, is_square (- (1) : Num p) -> ~ is_square d ->
  let onc := fun P : EPoint p => ey P * ey P - ex P * ex P = 1 + d * (ex P * ex P) * (ey P * ey P) in
  let O := mkE 0 1 in
  let opp := fun P : EPoint p => mkE (- ex P) (ey P) in
  onc O /\ (forall P, onc P -> onc (opp P)) /\
  (forall P Q, onc P -> onc Q -> exists R, e_add d P Q = Ok R /\ onc R /\ e_add d Q P = Ok R) /\
  (forall P, onc P -> e_add d O P = Ok P /\ e_add d P (opp P) = Ok O) /\
  (forall P Q R S T, onc P -> onc Q -> onc R -> e_add d P Q = Ok S -> e_add d Q R = Ok T ->
     exists U, e_add d S R = Ok U /\ e_add d P T = Ok U).
Proof. exact claim_C28_group. Qed.
Print Assumptions C28_group.

(** [mul]: the n-fold sum for the canonical n; [emul d n] is characterised by the
    three equations below. *)
Theorem C29_mul : forall (p : positive), Prime p ->
 forall (d : Num p) (P : EPoint p), is_square (- (1) : Num p) -> ~ is_square d -> on_curve d P ->
  (forall (l : positive) (s : Num l), e_mul d P s = Ok (emul d (nval s) P)) /\
  (forall (n : nat) (z : Z), (0 <= z < 2 ^ Z.of_nat (64 * n))%Z ->
     aff (x_mul_raw d (e_into_extended P) (limbs_of n z)) = emul d z P) /\
  emul d 0 P = mkE 0 1 /\ (forall z, emul d (z + 1) P = eadd d (emul d z P) P) /\
  (forall m n, emul d (m + n) P = eadd d (emul d m P) (emul d n P)) /\
  (forall m n, emul d (m * n) P = emul d m (emul d n P)).
Proof. exact claim_C29_mul. Qed.
Print Assumptions C29_mul.

Theorem C29_mod_order : forall (p : positive), Prime p ->
 forall (d : Num p) (P : EPoint p) (l : positive), is_square (- (1) : Num p) -> ~ is_square d ->
  on_curve d P -> emul d (Zpos l) P = mkE 0 1 ->
  (forall j k, (j mod Zpos l = k mod Zpos l)%Z -> emul d j P = emul d k P) /\
  (forall (s t : Num l) A B, e_mul d P s = Ok A -> e_mul d P t = Ok B -> e_mul d P (s + t) = e_add d A B) /\
  (forall (s t : Num l) A, e_mul d P t = Ok A -> e_mul d P (s * t) = e_mul d A s).
Proof. exact claim_C29_mod_order. Qed.
Print Assumptions C29_mod_order.

Theorem C30_to_montgomery : forall (p : positive), Prime p ->
 forall (d A B : Num p) (P : EPoint p), is_square (- (1) : Num p) -> ~ is_square d ->
  A * (1 + d) = (1 + 1) * (1 - d) /\ B * (1 + d) = - ((1 + 1) * (1 + 1)) ->
  on_curve d P ->
  (e_into_montgomery P = Ok None <-> P = mkE 0 1) /\
  (P <> mkE 0 1 -> exists M, e_into_montgomery P = Ok (Some M) /\
     B * (my M * my M) = mx M * mx M * mx M + A * (mx M * mx M) + mx M /\
     m_into_affine M = Ok P).
Proof. exact claim_C30_to_montgomery. Qed.
Print Assumptions C30_to_montgomery.

Theorem C30_from_montgomery : forall (p : positive), Prime p ->
 forall (d A B : Num p) (M : MPoint p), is_square (- (1) : Num p) -> ~ is_square d ->
  A * (1 + d) = (1 + 1) * (1 - d) /\ B * (1 + d) = - ((1 + 1) * (1 + 1)) ->
  B * (my M * my M) = mx M * mx M * mx M + A * (mx M * mx M) + mx M ->
  exists P, m_into_affine M = Ok P /\ on_curve d P /\ P <> mkE 0 1 /\ e_into_montgomery P = Ok (Some M).
Proof. exact claim_C30_from_montgomery. Qed.
Print Assumptions C30_from_montgomery.

Theorem C31_get_for_y : forall (p : positive), Prime p ->
 forall (d y : Num p) (sign : bool) (sqrt : Num p -> option (Num p)), is_square (- (1) : Num p) -> ~ is_square d ->
  (forall a, match sqrt a with Some b => b * b = a | None => ~ is_square a end) ->
  exists o, get_for_y sqrt d y sign = Ok o /\
    (o <> None <-> exists x, on_curve d (mkE x y)) /\
    (forall P, o = Some P -> on_curve d P /\ ey P = y /\ (ex P <> 0 -> Z.odd (nval (ex P)) = sign) /\
      (forall Q, on_curve d Q -> ey Q = y -> ex Q <> 0 -> Z.odd (nval (ex Q)) = sign -> Q = P)).
Proof. exact claim_C31_get_for_y. Qed.
Print Assumptions C31_get_for_y.

Theorem C32_decompress : forall (p : positive), Prime p ->
 forall (d x : Num p) (l : positive) (sqrt : Num p -> option (Num p)), is_square (- (1) : Num p) -> ~ is_square d ->
  Z.Odd (Zpos l) ->
  (forall a, match sqrt a with Some b => b * b = a | None => ~ is_square a end) ->
  exists o, subgroup_decompress sqrt l d x = Ok o /\
    forall P, o = Some P <-> on_curve d P /\ emul d (Zpos l) P = mkE 0 1 /\ ex P = x.
Proof. exact claim_C32_decompress. Qed.
Print Assumptions C32_decompress.

(** The parameter sets meet all of these hypotheses, whatever square root is used. *)
Theorem C32_both_curves : forall sqrt_bn sqrt_bls,
  (forall a, match sqrt_bn a with Some b => b * b = a | None => ~ is_square a end) ->
  (forall a, match sqrt_bls a with Some b => b * b = a | None => ~ is_square a end) ->
  (exists J, jubjub_bn sqrt_bn = Ok J /\ forall x, exists o, subgroup_decompress sqrt_bn bn_l (jd J) x = Ok o /\
     forall P, o = Some P <-> on_curve (jd J) P /\ emul (jd J) (Zpos bn_l) P = mkE 0 1 /\ ex P = x) /\
  (exists J, jubjub_bls sqrt_bls = Ok J /\ forall x, exists o, subgroup_decompress sqrt_bls bls_l (jd J) x = Ok o /\
     forall P, o = Some P <-> on_curve (jd J) P /\ emul (jd J) (Zpos bls_l) P = mkE 0 1 /\ ex P = x).
Proof. exact claim_C32_both_curves. Qed.
Print Assumptions C32_both_curves.

Theorem C33_cofactor : forall (p l : positive) (J : JubJub p l) (P : EPoint p), jubjub_ok J -> on_curve (jd J) P ->
  exists Q, e_mul_by_cofactor P = Ok Q /\ on_curve (jd J) Q /\ emul (jd J) (Zpos l) Q = mkE 0 1 /\
    x_is_in_subgroup l (jd J) (e_into_extended Q) = true /\
    (exists k, (0 <= k < Zpos l)%Z /\ Q = emul (jd J) k (jg J)).
Proof. exact claim_C33_cofactor. Qed.
Print Assumptions C33_cofactor.

Theorem C33_both_curves : forall sqrt_bn sqrt_bls,
  (forall a, match sqrt_bn a with Some b => b * b = a | None => ~ is_square a end) ->
  (forall a, match sqrt_bls a with Some b => b * b = a | None => ~ is_square a end) ->
  prime (Zpos bn_l) /\ prime (Zpos bls_l) /\
  (exists J, jubjub_bn sqrt_bn = Ok J /\ jubjub_ok J /\ forall P, on_curve (jd J) P -> exists Q, e_mul_by_cofactor P = Ok Q /\
     x_is_in_subgroup bn_l (jd J) (e_into_extended Q) = true) /\
  (exists J, jubjub_bls sqrt_bls = Ok J /\ jubjub_ok J /\ forall P, on_curve (jd J) P -> exists Q, e_mul_by_cofactor P = Ok Q /\
     x_is_in_subgroup bls_l (jd J) (e_into_extended Q) = true).
Proof. exact claim_C33_both_curves. Qed.
Print Assumptions C33_both_curves.

(** is_in_subgroup is membership in the group generated by the generator. *)
Theorem C33_subgroup : forall (p l : positive) (J : JubJub p l) (P : EPoint p), jubjub_ok J -> on_curve (jd J) P ->
  (x_is_in_subgroup l (jd J) (e_into_extended P) = true <-> exists k, (0 <= k < Zpos l)%Z /\ P = emul (jd J) k (jg J)).
Proof. exact claim_C33_subgroup. Qed.
Print Assumptions C33_subgroup.

Theorem C34_from_scalar : forall (p l : positive) (J : JubJub p l) (sqrt : Num p -> option (Num p)), jubjub_ok J ->
  (forall a, match sqrt a with Some b => b * b = a | None => ~ is_square a end) ->
  (forall t, t <> - (1) -> exists P, from_scalar sqrt J t = Ok P /\ on_curve (jd J) P /\ emul (jd J) (Zpos l) P = mkE 0 1) /\
  from_scalar sqrt J (- (1)) = Panic.
Proof. exact claim_C34_from_scalar. Qed.
Print Assumptions C34_from_scalar.

(** The result does not depend on which square root is returned. *)
Theorem C34_unique : forall (p l : positive) (J : JubJub p l) (s1 s2 : Num p -> option (Num p)) (t : Num p), jubjub_ok J ->
  (forall a, match s1 a with Some b => b * b = a | None => ~ is_square a end) ->
  (forall a, match s2 a with Some b => b * b = a | None => ~ is_square a end) ->
  from_scalar s1 J t = from_scalar s2 J t.
Proof. exact claim_C34_unique. Qed.
Print Assumptions C34_unique.

Theorem C34_both_curves : forall sqrt_bn sqrt_bls,
  (forall a, match sqrt_bn a with Some b => b * b = a | None => ~ is_square a end) ->
  (forall a, match sqrt_bls a with Some b => b * b = a | None => ~ is_square a end) ->
  (exists J, jubjub_bn sqrt_bn = Ok J /\ from_scalar sqrt_bn J (- (1)) = Panic /\
     forall t, t <> - (1) -> exists P, from_scalar sqrt_bn J t = Ok P /\ on_curve (jd J) P /\ emul (jd J) (Zpos bn_l) P = mkE 0 1) /\
  (exists J, jubjub_bls sqrt_bls = Ok J /\ from_scalar sqrt_bls J (- (1)) = Panic /\
     forall t, t <> - (1) -> exists P, from_scalar sqrt_bls J t = Ok P /\ on_curve (jd J) P /\ emul (jd J) (Zpos bls_l) P = mkE 0 1).
Proof. exact claim_C34_both_curves. Qed.
Print Assumptions C34_both_curves.

Theorem C63_bn256 : prime (Zpos bn_r) /\ prime (Zpos bn_l) /\ exists J : JubJub bn_r bn_l,
  (forall sqrt, (forall a, match sqrt a with Some b => b * b = a | None => ~ is_square a end) -> jubjub_bn sqrt = Ok J) /\
  is_square (- (1) : Num bn_r) /\ jd J = - (num 168696) / num 168700 /\ ~ is_square (jd J) /\
  ju J = num 337401 /\ ~ is_square (ju J) /\
  ja J = (1 + 1) * (1 - jd J) / (1 + jd J) /\ jb J = - ((1 + 1) * (1 + 1)) / (1 + jd J) /\
  on_curve (jd J) (jg J) /\ jg J <> mkE 0 1 /\ emul (jd J) (Zpos bn_l) (jg J) = mkE 0 1 /\
  exists ps, NoDup ps /\ (forall P, In P ps <-> on_curve (jd J) P) /\ Z.of_nat (length ps) = (8 * Zpos bn_l)%Z.
Proof. exact claim_C63_bn256. Qed.
Print Assumptions C63_bn256.

Theorem C63_bls12_381 : prime (Zpos bls_r) /\ prime (Zpos bls_l) /\ exists J : JubJub bls_r bls_l,
  (forall sqrt, (forall a, match sqrt a with Some b => b * b = a | None => ~ is_square a end) -> jubjub_bls sqrt = Ok J) /\
  is_square (- (1) : Num bls_r) /\ jd J = - (num 10240) / num 10241 /\ ~ is_square (jd J) /\
  ju J = num 81929 /\ ~ is_square (ju J) /\
  ja J = (1 + 1) * (1 - jd J) / (1 + jd J) /\ jb J = - ((1 + 1) * (1 + 1)) / (1 + jd J) /\
  on_curve (jd J) (jg J) /\ jg J <> mkE 0 1 /\ emul (jd J) (Zpos bls_l) (jg J) = mkE 0 1 /\
  exists ps, NoDup ps /\ (forall P, In P ps <-> on_curve (jd J) P) /\ Z.of_nat (length ps) = (8 * Zpos bls_l)%Z.
Proof. exact claim_C63_bls12_381. Qed.
Print Assumptions C63_bls12_381.

(** The coordinates of both generators, whatever square roots are returned. *)
Theorem C63_edwards_g : forall (s1 : Num bn_r -> option (Num bn_r)) (s2 : Num bls_r -> option (Num bls_r)) J J',
  (forall a, match s1 a with Some b => b * b = a | None => ~ is_square a end) ->
  (forall a, match s2 a with Some b => b * b = a | None => ~ is_square a end) ->
  jubjub_bn s1 = Ok J -> jubjub_bls s2 = Ok J' ->
  jg J = mkE (num 3136769009115878734591535780061023271603672807505340687898033796924625038576)
    (num 9219167653453464779020540250694647714630525780448598382451117487063353539706) /\
  jg J' = mkE (num 44712518387605426644504699667580005941754982390059929374970847015217361777390)
    (num 46846510589459161038357857118145854213068421404599278795502517840024729615816).
Proof. exact claim_C63_edwards_g. Qed.
Print Assumptions C63_edwards_g.

(** The declared generator 7 of BLS12-381's Fs generates the multiplicative group. *)
Theorem C63_bls_generator : forall a : Num bls_l, a <> 0 -> exists n, a = npow (num 7) n.
Proof. exact claim_C63_bls_generator. Qed.
Print Assumptions C63_bls_generator.

(** That of BN256's Fs does not: 7 is a square there. *)
Theorem C63_bn_generator_refuted : exists a : Num bn_l, a <> 0 /\ forall n, a <> npow (num 7) n.
Proof. exact claim_C63_bn_generator_refuted. Qed.
Print Assumptions C63_bn_generator_refuted.

(** Cases: the toy curve meets every hypothesis; so do the two real ones (C63). *)
Example C27_extended_case : is_square (- (1) : Num 37) /\ ~ is_square (num 2 : Num 37) /\
  on_curve (num 2) (mkE (num 8) (num 10) : EPoint 37) /\
  xok (num 2) (mkX (num 16) (num 20) (num 12) (num 2) : XPoint 37).
Proof. exact case_C27_extended. Qed.

Example C29_mul_case : exists P, e_mul (num 2) (mkE (num 8) (num 10) : EPoint 37) (num 3 : Num 5) = Ok P /\ nval (ex P) = 12%Z.
Proof. exact case_C29_mul. Qed.

Example C30_to_montgomery_case : exists M : MPoint 37, e_into_montgomery (mkE (num 8) (num 10)) = Ok (Some M) /\ nval (mx M) <> 0%Z.
Proof. exact case_C30_to_montgomery. Qed.

Example C32_decompress_case : exists sqrt : Num 37 -> option (Num 37),
  (forall a, match sqrt a with Some b => b * b = a | None => ~ is_square a end) /\
  match subgroup_decompress sqrt 5 (num 2) (num 8) with Ok (Some P) => e_eqb P (mkE (num 8) (num 10)) | _ => false end = true.
Proof. exact case_C32_decompress. Qed.

Example C33_cofactor_case : jubjub_ok toy.
Proof. exact case_C33_cofactor. Qed.

Example C34_from_scalar_case : match from_scalar sqrt_search toy (num 3) with Ok P => negb (e_is_zero P) && x_is_in_subgroup 5 (jd toy) (e_into_extended P) | Panic => false end = true.
Proof. exact case_C34_from_scalar. Qed.
