(** Claims about the native curves (native/ecc.rs, bn256.rs, bls12_381.rs). *)

From Verif Require Export NumClaims Toy CodecClaims Generator.
From Verif Require Import Primality.
Open Scope num_scope.

Section PrimeClaims.
Variable p : positive.
Hypothesis Hp : Prime p.
Set Default Proof Using "Hp".
Notation F := (Num p).
Add Field ecl_field : (num_field Hp) (morphism (@num_morph p), constants [num_cst], power_tac (@num_power p) [num_pow_cst]).

(* C27 *)
(** [xok d X]: Z <> 0, Z T = X Y and (X/Z, Y/Z) is on the curve; [eadd] is the affine law. *)
Lemma claim_C27_extended : forall (d : Num p) (X Y : XPoint p), is_square (- (1) : Num p) -> ~ is_square d ->
  (xz X <> 0 /\ xz X * xt X = xx X * xy X /\ on_curve d (mkE (xx X / xz X) (xy X / xz X))) ->
  (xz Y <> 0 /\ xz Y * xt Y = xx Y * xy Y /\ on_curve d (mkE (xx Y / xz Y) (xy Y / xz Y))) ->
  (xok d (x_add d X Y) /\ aff (x_add d X Y) = eadd d (aff X) (aff Y)) /\
  (xok d (x_double X) /\ aff (x_double X) = eadd d (aff X) (aff X)) /\
  (xok d (x_negate X) /\ aff (x_negate X) = mkE (- ex (aff X)) (ey (aff X))) /\
  (xok d (x_mul_by_cofactor X) /\ aff (x_mul_by_cofactor X) = emul d 8 (aff X)) /\
  x_into_affine X = Ok (mkE (xx X / xz X) (xy X / xz X)) /\
  (x_eqb X Y = true <-> aff X = aff Y) /\
  (x_is_zero X = true <-> aff X = mkE 0 1) /\
  x_is_in_curve d X = true.
Proof.
  intros d X Y Hm1 Hd HX HY. change (xok d X) in HX. change (xok d Y) in HY.
  split; [now apply x_add_ok|]. split; [now apply x_double_ok|]. split; [now apply (x_negate_ok Hp d Hm1 Hd)|].
  split; [now apply x_cofactor_ok|]. split; [apply (x_into_affine_ok Hp d Hm1 Hd); apply HX|].
  split; [apply (x_eqb_iff Hp d Hm1 Hd); [apply HX|apply HY]|].
  split; [apply (x_is_zero_iff Hp d Hm1 Hd); apply HX|]. now apply (x_is_in_curve_iff Hp d Hm1 Hd).
Qed.
Lemma claim_C27_in_curve_exact : forall (d : Num p) (X : XPoint p), is_square (- (1) : Num p) -> ~ is_square d ->
  (x_is_in_curve d X = true <-> xz X <> 0 /\ xz X * xt X = xx X * xy X /\ on_curve d (mkE (xx X / xz X) (xy X / xz X))).
Proof. intros d X Hm1 Hd. now apply (x_is_in_curve_iff Hp d Hm1 Hd). Qed.
(** The affine wrappers: no panic on curve points, and the affine law. *)
Lemma claim_C27_affine : forall (d : Num p) (P Q : EPoint p), is_square (- (1) : Num p) -> ~ is_square d ->
  on_curve d P -> on_curve d Q ->
  e_add d P Q = Ok (mkE ((ex P * ey Q + ey P * ex Q) / (1 + d * ex P * ex Q * ey P * ey Q))
                        ((ey P * ey Q + ex P * ex Q) / (1 - d * ex P * ex Q * ey P * ey Q))) /\
  e_double P = Ok (eadd d P P) /\ e_mul_by_cofactor P = Ok (emul d 8 P) /\
  1 + d * ex P * ex Q * ey P * ey Q <> 0 /\ 1 - d * ex P * ex Q * ey P * ey Q <> 0.
Proof.
  intros d P Q Hm1 Hd HP HQ. split; [now apply e_add_ok|]. split; [now apply e_double_ok|].
  split; [now apply e_cofactor_ok|]. now apply (complete Hp d Hm1 Hd).
Qed.

(* C28 *)
Lemma claim_C28_group : forall d : Num p, is_square (- (1) : Num p) -> ~ is_square d ->
  let onc := fun P : EPoint p => ey P * ey P - ex P * ex P = 1 + d * (ex P * ex P) * (ey P * ey P) in
  let O := mkE 0 1 in
  let opp := fun P : EPoint p => mkE (- ex P) (ey P) in
  onc O /\ (forall P, onc P -> onc (opp P)) /\
  (forall P Q, onc P -> onc Q -> exists R, e_add d P Q = Ok R /\ onc R /\ e_add d Q P = Ok R) /\
  (forall P, onc P -> e_add d O P = Ok P /\ e_add d P (opp P) = Ok O) /\
  (forall P Q R S T, onc P -> onc Q -> onc R -> e_add d P Q = Ok S -> e_add d Q R = Ok T ->
     exists U, e_add d S R = Ok U /\ e_add d P T = Ok U).
Proof.
  intros d Hm1 Hd onc O opp. pose proof (edwards_group Hp d Hm1 Hd) as EG.
  assert (A : forall P Q, onc P -> onc Q -> e_add d P Q = Ok (eadd d P Q)) by (intros; now apply (e_add_ok Hp d Hm1 Hd)).
  assert (C : forall P Q, onc P -> onc Q -> onc (eadd d P Q)) by apply (ok_add _ _ _ _ EG).
  assert (N : forall P, onc P -> onc (opp P)) by apply (onc_neg Hp d Hm1 Hd).
  split; [apply (onc_zero Hp d Hm1 Hd)|]. split; [exact N|]. split; [|split].
  - intros P Q HP HQ. exists (eadd d P Q). rewrite !A by auto. split; auto. split; auto. f_equal. apply (eadd_comm Hp d Hm1 Hd).
  - intros P HP. rewrite !A by (auto; apply (onc_zero Hp d Hm1 Hd)). split; f_equal; [apply (eadd_zero Hp d Hm1 Hd)|].
    apply (gaddNr EG); auto.
  - intros P Q R S T HP HQ HR E1 E2. rewrite A in E1, E2 by auto.
    assert (S = eadd d P Q) by congruence. assert (T = eadd d Q R) by congruence. subst.
    exists (eadd d (eadd d P Q) R). rewrite !A by auto. split; auto. f_equal. symmetry. now apply (eadd_assoc Hp d Hm1 Hd).
Qed.

(* C29 *)
(** [mul]: the n-fold sum for the canonical n; [emul d n] is characterised by the
    three equations below. *)
Lemma claim_C29_mul : forall (d : Num p) (P : EPoint p), is_square (- (1) : Num p) -> ~ is_square d -> on_curve d P ->
  (forall (l : positive) (s : Num l), e_mul d P s = Ok (emul d (nval s) P)) /\
  (forall (n : nat) (z : Z), (0 <= z < 2 ^ Z.of_nat (64 * n))%Z ->
     aff (x_mul_raw d (e_into_extended P) (limbs_of n z)) = emul d z P) /\
  emul d 0 P = mkE 0 1 /\ (forall z, emul d (z + 1) P = eadd d (emul d z P) P) /\
  (forall m n, emul d (m + n) P = eadd d (emul d m P) (emul d n P)) /\
  (forall m n, emul d (m * n) P = emul d m (emul d n P)).
Proof.
  intros d P Hm1 Hd HP. pose proof (edwards_group Hp d Hm1 Hd) as EG.
  destruct (e_into_extended_ok Hp d Hm1 Hd P HP) as [HX EX].
  split; [intros; now apply e_mul_ok|].
  split. { intros n z Hz. destruct (x_mul_raw_ok Hp d Hm1 Hd _ n z HX Hz) as [_ E]. now rewrite EX in E. }
  split; [reflexivity|]. split; [|split].
  - intros z. unfold emul. rewrite (zmul_add EG), (zmul_1 EG) by auto. reflexivity.
  - intros m n. apply (zmul_add EG); auto.
  - intros m n. now apply emul_mul.
Qed.
Lemma claim_C29_mod_order : forall (d : Num p) (P : EPoint p) (l : positive), is_square (- (1) : Num p) -> ~ is_square d ->
  on_curve d P -> emul d (Zpos l) P = mkE 0 1 ->
  (forall j k, (j mod Zpos l = k mod Zpos l)%Z -> emul d j P = emul d k P) /\
  (forall (s t : Num l) A B, e_mul d P s = Ok A -> e_mul d P t = Ok B -> e_mul d P (s + t) = e_add d A B) /\
  (forall (s t : Num l) A, e_mul d P t = Ok A -> e_mul d P (s * t) = e_mul d A s).
Proof.
  intros d P l Hm1 Hd HP E. pose proof (edwards_group Hp d Hm1 Hd) as EG.
  assert (C : forall j k, (j mod Zpos l = k mod Zpos l)%Z -> emul d j P = emul d k P)
    by (intros j k; apply (zmul_congr EG (Zpos l) j k P HP E)).
  pose proof (onc_emul Hp d Hm1 Hd) as OE.
  split; [exact C|]. split.
  - intros s t A B EA EB. rewrite (e_mul_ok Hp d Hm1 Hd) in EA, EB by auto.
    assert (A = emul d (nval s) P) by congruence. assert (B = emul d (nval t) P) by congruence. subst.
    rewrite (e_mul_ok Hp d Hm1 Hd), (e_add_ok Hp d Hm1 Hd) by auto. f_equal.
    transitivity (emul d (nval s + nval t) P); [|exact (zmul_add EG _ _ P HP)].
    apply C. unfold nadd. rewrite nval_num. apply Zmod_mod.
  - intros s t A EA. rewrite (e_mul_ok Hp d Hm1 Hd) in EA by auto.
    assert (A = emul d (nval t) P) by congruence. subst.
    rewrite !(e_mul_ok Hp d Hm1 Hd) by auto. f_equal. rewrite <- (emul_mul Hp d Hm1 Hd) by auto.
    apply C. unfold nmul. rewrite nval_num. apply Zmod_mod.
Qed.

(* C30 *)
Lemma claim_C30_to_montgomery : forall (d A B : Num p) (P : EPoint p), is_square (- (1) : Num p) -> ~ is_square d ->
  A * (1 + d) = (1 + 1) * (1 - d) /\ B * (1 + d) = - ((1 + 1) * (1 + 1)) ->
  on_curve d P ->
  (e_into_montgomery P = Ok None <-> P = mkE 0 1) /\
  (P <> mkE 0 1 -> exists M, e_into_montgomery P = Ok (Some M) /\
     B * (my M * my M) = mx M * mx M * mx M + A * (mx M * mx M) + mx M /\
     m_into_affine M = Ok P).
Proof.
  intros d A B P Hm1 Hd HM HP. destruct (e_into_montgomery_ok Hp d A B Hm1 Hd HM P HP) as [E1 E2].
  split; [split; [|exact E1]|].
  - intros E. destruct (epoint_dec P e_zero) as [|N]; auto. destruct (E2 N) as [M [E' _]]. congruence.
  - intros N. destruct (E2 N) as [M [E' R]]. exists M. split; auto. pose proof (proj1 R) as C. split; [exact C|].
    rewrite (m_into_affine_ok Hp d A B Hm1 Hd HM M C). f_equal. now apply (unmont_mrel Hp d A B Hm1 Hd HM).
Qed.
Lemma claim_C30_from_montgomery : forall (d A B : Num p) (M : MPoint p), is_square (- (1) : Num p) -> ~ is_square d ->
  A * (1 + d) = (1 + 1) * (1 - d) /\ B * (1 + d) = - ((1 + 1) * (1 + 1)) ->
  B * (my M * my M) = mx M * mx M * mx M + A * (mx M * mx M) + mx M ->
  exists P, m_into_affine M = Ok P /\ on_curve d P /\ P <> mkE 0 1 /\ e_into_montgomery P = Ok (Some M).
Proof.
  intros d A B M Hm1 Hd HM C. exists (unmont M). rewrite (m_into_affine_ok Hp d A B Hm1 Hd HM M C). split; auto.
  destruct (unmont_ok Hp d A B Hm1 Hd HM M C) as [C' [N R]]. split; auto. split; auto.
  destruct (e_into_montgomery_ok Hp d A B Hm1 Hd HM _ C') as [_ E]. destruct (E N) as [M' [E' R']]. rewrite E'.
  do 2 f_equal. apply (mrel_inj Hp d A B Hm1 Hd HM (unmont M)); auto.
Qed.

(* C31 *)
Lemma claim_C31_get_for_y : forall (d y : Num p) (sign : bool) (sqrt : Num p -> option (Num p)), is_square (- (1) : Num p) -> ~ is_square d ->
  (forall a, match sqrt a with Some b => b * b = a | None => ~ is_square a end) ->
  exists o, get_for_y sqrt d y sign = Ok o /\
    (o <> None <-> exists x, on_curve d (mkE x y)) /\
    (forall P, o = Some P -> on_curve d P /\ ey P = y /\ (ex P <> 0 -> Z.odd (nval (ex P)) = sign) /\
      (forall Q, on_curve d Q -> ey Q = y -> ex Q <> 0 -> Z.odd (nval (ex Q)) = sign -> Q = P)).
Proof.
  intros d y sign sqrt Hm1 Hd Hs. destruct (get_for_y_ok Hp d Hm1 Hd sqrt Hs y sign) as [o [E K]]. exists o. split; auto. split.
  - destruct o as [P|].
    + split; [|discriminate]. intros _. destruct K as [K1 [K2 _]]. exists (ex P). rewrite <- K2. now destruct P.
    + split; [congruence|]. intros [x Hx]. destruct (K x Hx).
  - intros P ->. destruct K as [K1 [K2 K3]]. split; auto. split; auto. split; auto.
    intros Q HQ Ey Nq Sq. destruct P as [x y'], Q as [x' y'']. cbn [ex ey] in *. subst y' y''.
    apply (onc_iff_y Hp d Hm1 Hd) in K1, HQ. rewrite <- K1 in HQ.
    destruct (square_roots Hp _ _ HQ) as [->| ->]; auto. exfalso.
    assert (Nx : x <> 0) by (intros ->; apply Nq; ring). rewrite (parity_neg Hp d Hm1 Hd) in Sq by auto. specialize (K3 Nx).
    destruct (Z.odd (nval x)), sign; cbn in *; congruence.
Qed.

(* C32 *)
Lemma claim_C32_decompress : forall (d x : Num p) (l : positive) (sqrt : Num p -> option (Num p)), is_square (- (1) : Num p) -> ~ is_square d ->
  Z.Odd (Zpos l) ->
  (forall a, match sqrt a with Some b => b * b = a | None => ~ is_square a end) ->
  exists o, subgroup_decompress sqrt l d x = Ok o /\
    forall P, o = Some P <-> on_curve d P /\ emul d (Zpos l) P = mkE 0 1 /\ ex P = x.
Proof.
  intros d x l sqrt Hm1 Hd Ho Hs. destruct (subgroup_decompress_ok Hp d Hm1 Hd sqrt Hs l x Ho) as [o [E K]].
  exists o. split; auto. intros P. destruct o as [Q|].
  - destruct K as [K1 [K2 [K3 K4]]]. split.
    + intros X. assert (Q = P) by congruence. subst. auto.
    + intros [H1 [H2 H3]]. f_equal. symmetry. now apply K4.
  - split; [discriminate|]. intros [H1 [H2 H3]]. destruct (K P H1 H3 H2).
Qed.
Lemma t1_neq (t : F) : t <> - (1) -> t + 1 <> 0.
Proof. intros H E. apply H. transitivity ((t + 1) - 1); [ring|]. rewrite E. ring. Qed.
Lemma eq_div (a b c : F) : c <> 0 -> a * c = b -> a = b / c.
Proof. intros N <-. field; auto. Qed.
End PrimeClaims.
Unset Default Proof Using.

(** The parameter sets meet all of these hypotheses, whatever square root is used. *)
Lemma claim_C32_both_curves : forall sqrt_bn sqrt_bls,
  (forall a, match sqrt_bn a with Some b => b * b = a | None => ~ is_square a end) ->
  (forall a, match sqrt_bls a with Some b => b * b = a | None => ~ is_square a end) ->
  (exists J, jubjub_bn sqrt_bn = Ok J /\ forall x, exists o, subgroup_decompress sqrt_bn bn_l (jd J) x = Ok o /\
     forall P, o = Some P <-> on_curve (jd J) P /\ emul (jd J) (Zpos bn_l) P = mkE 0 1 /\ ex P = x) /\
  (exists J, jubjub_bls sqrt_bls = Ok J /\ forall x, exists o, subgroup_decompress sqrt_bls bls_l (jd J) x = Ok o /\
     forall P, o = Some P <-> on_curve (jd J) P /\ emul (jd J) (Zpos bls_l) P = mkE 0 1 /\ ex P = x).
Proof.
  intros s1 s2 H1 H2. destruct jubjub_bn_ok as [J [K [_ [_ [_ [_ E]]]]]]. destruct jubjub_bls_ok as [J' [K' [_ [_ [_ [_ E']]]]]].
  split; [exists J|exists J']; (split; [auto|]); intros x; apply claim_C32_decompress; auto; try apply K; apply K'.
Qed.

(* C33 *)
Lemma claim_C33_cofactor : forall (p l : positive) (J : JubJub p l) (P : EPoint p), jubjub_ok J -> on_curve (jd J) P ->
  exists Q, e_mul_by_cofactor P = Ok Q /\ on_curve (jd J) Q /\ emul (jd J) (Zpos l) Q = mkE 0 1 /\
    x_is_in_subgroup l (jd J) (e_into_extended Q) = true /\
    (exists k, (0 <= k < Zpos l)%Z /\ Q = emul (jd J) k (jg J)).
Proof.
  intros p l J P K HP. pose proof (j_p _ K) as Hp. pose proof (j_m1 _ K) as Hm1. pose proof (j_d _ K) as Hd.
  exists (emul (jd J) 8 P). split; [now apply (e_cofactor_ok Hp _ Hm1 Hd)|].
  pose proof (onc_emul Hp _ Hm1 Hd 8 P HP) as C. split; auto.
  assert (E : emul (jd J) (Zpos l) (emul (jd J) 8 P) = e_zero).
  { rewrite <- (emul_mul Hp _ Hm1 Hd) by auto. rewrite Z.mul_comm. now apply (j_exp _ K). }
  split; [exact E|]. split; [|now apply (j_cyc _ K)].
  destruct (e_into_extended_ok Hp _ Hm1 Hd _ C) as [HX EX]. apply (x_is_in_subgroup_iff Hp _ Hm1 Hd); auto. now rewrite EX.
Qed.
Lemma claim_C33_both_curves : forall sqrt_bn sqrt_bls,
  (forall a, match sqrt_bn a with Some b => b * b = a | None => ~ is_square a end) ->
  (forall a, match sqrt_bls a with Some b => b * b = a | None => ~ is_square a end) ->
  prime (Zpos bn_l) /\ prime (Zpos bls_l) /\
  (exists J, jubjub_bn sqrt_bn = Ok J /\ jubjub_ok J /\ forall P, on_curve (jd J) P -> exists Q, e_mul_by_cofactor P = Ok Q /\
     x_is_in_subgroup bn_l (jd J) (e_into_extended Q) = true) /\
  (exists J, jubjub_bls sqrt_bls = Ok J /\ jubjub_ok J /\ forall P, on_curve (jd J) P -> exists Q, e_mul_by_cofactor P = Ok Q /\
     x_is_in_subgroup bls_l (jd J) (e_into_extended Q) = true).
Proof.
  intros s1 s2 H1 H2. split; [exact bn_l_prime|]. split; [exact bls_l_prime|].
  destruct jubjub_bn_ok as [J [K [_ [_ [_ [_ E]]]]]]. destruct jubjub_bls_ok as [J' [K' [_ [_ [_ [_ E']]]]]].
  split; [exists J|exists J']; (split; [auto|]); (split; [assumption|]); intros P HP.
  - destruct (claim_C33_cofactor _ _ J P K HP) as [Q [A [_ [_ [B _]]]]]. eauto.
  - destruct (claim_C33_cofactor _ _ J' P K' HP) as [Q [A [_ [_ [B _]]]]]. eauto.
Qed.
(** is_in_subgroup is membership in the group generated by the generator. *)
Lemma claim_C33_subgroup : forall (p l : positive) (J : JubJub p l) (P : EPoint p), jubjub_ok J -> on_curve (jd J) P ->
  (x_is_in_subgroup l (jd J) (e_into_extended P) = true <-> exists k, (0 <= k < Zpos l)%Z /\ P = emul (jd J) k (jg J)).
Proof.
  intros p l J P K HP. pose proof (j_p _ K) as Hp. pose proof (j_m1 _ K) as Hm1. pose proof (j_d _ K) as Hd.
  destruct (e_into_extended_ok Hp _ Hm1 Hd _ HP) as [HX EX]. rewrite (x_is_in_subgroup_iff Hp _ Hm1 Hd), EX by auto.
  split; [now apply (j_cyc _ K)|]. intros [k [_ ->]]. pose proof (j_g _ K) as G. rewrite <- (emul_mul Hp _ Hm1 Hd), Z.mul_comm, (emul_mul Hp _ Hm1 Hd), (j_gl _ K) by auto.
  apply (zmul_zero (edwards_group Hp _ Hm1 Hd)).
Qed.

(* C34 *)
Lemma claim_C34_from_scalar : forall (p l : positive) (J : JubJub p l) (sqrt : Num p -> option (Num p)), jubjub_ok J ->
  (forall a, match sqrt a with Some b => b * b = a | None => ~ is_square a end) ->
  (forall t, t <> - (1) -> exists P, from_scalar sqrt J t = Ok P /\ on_curve (jd J) P /\ emul (jd J) (Zpos l) P = mkE 0 1) /\
  from_scalar sqrt J (- (1)) = Panic.
Proof.
  intros p l J sqrt K Hs. pose proof (j_p _ K) as Hp. pose proof (j_m1 _ K) as Hm1. pose proof (j_d _ K) as Hd.
  pose proof (j_mont _ K) as HM. pose proof (j_u _ K) as Hu. unfold from_scalar. split.
  - intros t Ht. pose proof (t1_neq _ Hp t Ht) as N.
    destruct (from_scalar_raw_ok Hp _ _ _ Hm1 Hd HM _ Hu sqrt Hs t N) as [M [FS E]]. eexists. split; [exact E|].
    pose proof (fs_point_onm Hp _ _ _ Hm1 Hd HM _ Hu t M FS) as C. destruct (unmont_ok Hp _ _ _ Hm1 Hd HM M C) as [CP _].
    split; [now apply (onc_emul Hp _ Hm1 Hd)|]. rewrite <- (emul_mul Hp _ Hm1 Hd) by auto. rewrite Z.mul_comm. now apply (j_exp _ K).
  - exact (from_scalar_raw_m1 Hp _ _ _ Hm1 Hd HM _ Hu sqrt Hs).
Qed.
(** The result does not depend on which square root is returned. *)
Lemma claim_C34_unique : forall (p l : positive) (J : JubJub p l) (s1 s2 : Num p -> option (Num p)) (t : Num p), jubjub_ok J ->
  (forall a, match s1 a with Some b => b * b = a | None => ~ is_square a end) ->
  (forall a, match s2 a with Some b => b * b = a | None => ~ is_square a end) ->
  from_scalar s1 J t = from_scalar s2 J t.
Proof.
  intros p l J s1 s2 t K H1 H2. pose proof (j_p _ K) as Hp. pose proof (j_m1 _ K) as Hm1. pose proof (j_d _ K) as Hd.
  pose proof (j_mont _ K) as HM. pose proof (j_u _ K) as Hu. unfold from_scalar.
  destruct (num_eq_dec t (- (1))) as [->|N].
  - now rewrite (from_scalar_raw_m1 Hp _ _ _ Hm1 Hd HM _ Hu s1 H1), (from_scalar_raw_m1 Hp _ _ _ Hm1 Hd HM _ Hu s2 H2).
  - pose proof (t1_neq _ Hp t N) as N'.
    destruct (from_scalar_raw_ok Hp _ _ _ Hm1 Hd HM _ Hu s1 H1 t N') as [M [FS ->]].
    destruct (from_scalar_raw_ok Hp _ _ _ Hm1 Hd HM _ Hu s2 H2 t N') as [M' [FS' ->]].
    now rewrite (fs_point_unique Hp _ _ _ Hm1 Hd HM _ Hu t M M' FS FS').
Qed.
Lemma claim_C34_both_curves : forall sqrt_bn sqrt_bls,
  (forall a, match sqrt_bn a with Some b => b * b = a | None => ~ is_square a end) ->
  (forall a, match sqrt_bls a with Some b => b * b = a | None => ~ is_square a end) ->
  (exists J, jubjub_bn sqrt_bn = Ok J /\ from_scalar sqrt_bn J (- (1)) = Panic /\
     forall t, t <> - (1) -> exists P, from_scalar sqrt_bn J t = Ok P /\ on_curve (jd J) P /\ emul (jd J) (Zpos bn_l) P = mkE 0 1) /\
  (exists J, jubjub_bls sqrt_bls = Ok J /\ from_scalar sqrt_bls J (- (1)) = Panic /\
     forall t, t <> - (1) -> exists P, from_scalar sqrt_bls J t = Ok P /\ on_curve (jd J) P /\ emul (jd J) (Zpos bls_l) P = mkE 0 1).
Proof.
  intros s1 s2 H1 H2.
  destruct jubjub_bn_ok as [J [K [_ [_ [_ [_ E]]]]]]. destruct jubjub_bls_ok as [J' [K' [_ [_ [_ [_ E']]]]]].
  destruct (claim_C34_from_scalar _ _ J s1 K H1) as [A B]. destruct (claim_C34_from_scalar _ _ J' s2 K' H2) as [A' B'].
  split; [exists J|exists J']; auto.
Qed.

(* C63 *)
Lemma claim_C63_bn256 : prime (Zpos bn_r) /\ prime (Zpos bn_l) /\ exists J : JubJub bn_r bn_l,
  (forall sqrt, (forall a, match sqrt a with Some b => b * b = a | None => ~ is_square a end) -> jubjub_bn sqrt = Ok J) /\
  is_square (- (1) : Num bn_r) /\ jd J = - (num 168696) / num 168700 /\ ~ is_square (jd J) /\
  ju J = num 337401 /\ ~ is_square (ju J) /\
  ja J = (1 + 1) * (1 - jd J) / (1 + jd J) /\ jb J = - ((1 + 1) * (1 + 1)) / (1 + jd J) /\
  on_curve (jd J) (jg J) /\ jg J <> mkE 0 1 /\ emul (jd J) (Zpos bn_l) (jg J) = mkE 0 1 /\
  exists ps, NoDup ps /\ (forall P, In P ps <-> on_curve (jd J) P) /\ Z.of_nat (length ps) = (8 * Zpos bn_l)%Z.
Proof.
  destruct jubjub_bn_ok as [J [K [E1 [_ [_ [E2 E3]]]]]].
  split; [exact bn_r_prime|]. split; [exact bn_l_prime|]. exists J.
  pose proof (j_p _ K) as Hp. pose proof (one_d_neq0 Hp _ (j_m1 _ K) (j_d _ K)) as N. destruct (j_mont _ K) as [M1 M2].
  assert (D : forall a b : Num bn_r, a * (1 + jd J) = b -> a = b / (1 + jd J)).
  { intros a b. now apply (eq_div _ Hp). }
  split; [exact E3|]. split; [apply K|]. split; [exact E1|]. split; [apply K|]. split; [exact E2|]. split; [apply K|].
  split; [now apply D|]. split; [now apply D|]. split; [apply K|]. split; [apply K|]. split; apply K.
Qed.
Lemma claim_C63_bls12_381 : prime (Zpos bls_r) /\ prime (Zpos bls_l) /\ exists J : JubJub bls_r bls_l,
  (forall sqrt, (forall a, match sqrt a with Some b => b * b = a | None => ~ is_square a end) -> jubjub_bls sqrt = Ok J) /\
  is_square (- (1) : Num bls_r) /\ jd J = - (num 10240) / num 10241 /\ ~ is_square (jd J) /\
  ju J = num 81929 /\ ~ is_square (ju J) /\
  ja J = (1 + 1) * (1 - jd J) / (1 + jd J) /\ jb J = - ((1 + 1) * (1 + 1)) / (1 + jd J) /\
  on_curve (jd J) (jg J) /\ jg J <> mkE 0 1 /\ emul (jd J) (Zpos bls_l) (jg J) = mkE 0 1 /\
  exists ps, NoDup ps /\ (forall P, In P ps <-> on_curve (jd J) P) /\ Z.of_nat (length ps) = (8 * Zpos bls_l)%Z.
Proof.
  destruct jubjub_bls_ok as [J [K [E1 [_ [_ [E2 E3]]]]]].
  split; [exact bls_r_prime|]. split; [exact bls_l_prime|]. exists J.
  pose proof (j_p _ K) as Hp. pose proof (one_d_neq0 Hp _ (j_m1 _ K) (j_d _ K)) as N. destruct (j_mont _ K) as [M1 M2].
  assert (D : forall a b : Num bls_r, a * (1 + jd J) = b -> a = b / (1 + jd J)).
  { intros a b. now apply (eq_div _ Hp). }
  split; [exact E3|]. split; [apply K|]. split; [exact E1|]. split; [apply K|]. split; [exact E2|]. split; [apply K|].
  split; [now apply D|]. split; [now apply D|]. split; [apply K|]. split; [apply K|]. split; apply K.
Qed.
(** The coordinates of both generators, whatever square roots are returned. *)
Lemma claim_C63_edwards_g : forall (s1 : Num bn_r -> option (Num bn_r)) (s2 : Num bls_r -> option (Num bls_r)) J J',
  (forall a, match s1 a with Some b => b * b = a | None => ~ is_square a end) ->
  (forall a, match s2 a with Some b => b * b = a | None => ~ is_square a end) ->
  jubjub_bn s1 = Ok J -> jubjub_bls s2 = Ok J' ->
  jg J = mkE (num 3136769009115878734591535780061023271603672807505340687898033796924625038576)
    (num 9219167653453464779020540250694647714630525780448598382451117487063353539706) /\
  jg J' = mkE (num 44712518387605426644504699667580005941754982390059929374970847015217361777390)
    (num 46846510589459161038357857118145854213068421404599278795502517840024729615816).
Proof. intros s1 s2 J J' H1 H2 E1 E2. split; [exact (jubjub_bn_gen s1 J H1 E1)|exact (jubjub_bls_gen s2 J' H2 E2)]. Qed.
(** The declared generator 7 of BLS12-381's Fs generates the multiplicative group. *)
Lemma claim_C63_bls_generator : forall a : Num bls_l, a <> 0 -> exists n, a = npow (num 7) n.
Proof.
  apply (gen_all bls_l_prime 7 bls_l_factors bls_l_factors_prime).
  - intros E. apply (f_equal nval) in E. vm_compute in E. discriminate.
  - vm_compute. reflexivity.
Qed.
(** That of BN256's Fs does not: 7 is a square there. *)
Lemma claim_C63_bn_generator_refuted : exists a : Num bn_l, a <> 0 /\ forall n, a <> npow (num 7) n.
Proof.
  pose (r := num 1706365423999614203118372170309914028114143693603411844953832882683660970209 : Num bn_l).
  assert (R : (num 7 : Num bn_l) = r * r) by (apply neqb_eq; vm_compute; reflexivity).
  exists (num 19 : Num bn_l).
  assert (NS : ~ is_square (num 19 : Num bn_l)).
  { apply (euler_nonsquare bn_l_prime).
    - exact I.
    - intros E. rewrite npow_num in E. apply (f_equal nval) in E. rewrite nval_num in E.
      change (Z.of_N (Z.to_N ((Zpos bn_l - 1) / 2))) with (Zpos (Z.to_pos ((Zpos bn_l - 1) / 2))) in E.
      rewrite <- powm_spec, <- powmM_powm in E by reflexivity. revert E. apply Z.eqb_neq. vm_compute. reflexivity.
    - intros E. apply (f_equal nval) in E. vm_compute in E. discriminate. }
  split.
  - intros E. apply NS. exists 0. rewrite E. vm_compute. reflexivity.
  - intros n E. apply NS. rewrite E, R. exists (npow r n). rewrite npow_mul_l. reflexivity.
Qed.

(** Cases: the toy curve meets every hypothesis; so do the two real ones (C63). *)
Lemma case_C27_extended : is_square (- (1) : Num 37) /\ ~ is_square (num 2 : Num 37) /\
  on_curve (num 2) (mkE (num 8) (num 10) : EPoint 37) /\
  xok (num 2) (mkX (num 16) (num 20) (num 12) (num 2) : XPoint 37).
Proof.
  pose proof toy_ok as K. split; [apply K|]. split; [apply K|]. split; [apply (j_g _ K)|].
  apply (x_is_in_curve_iff (j_p _ K) _ (j_m1 _ K) (j_d _ K)). vm_compute. reflexivity.
Qed.
Lemma case_C29_mul : exists P, e_mul (num 2) (mkE (num 8) (num 10) : EPoint 37) (num 3 : Num 5) = Ok P /\ nval (ex P) = 12%Z.
Proof.
  pose proof toy_ok as K. rewrite (e_mul_ok (j_p _ K) _ (j_m1 _ K) (j_d _ K)) by apply (j_g _ K).
  eexists. split; [reflexivity|]. vm_compute. reflexivity.
Qed.
Lemma case_C30_to_montgomery : exists M : MPoint 37, e_into_montgomery (mkE (num 8) (num 10)) = Ok (Some M) /\ nval (mx M) <> 0%Z.
Proof.
  pose proof toy_ok as K. destruct (e_into_montgomery_ok (j_p _ K) _ _ _ (j_m1 _ K) (j_d _ K) (j_mont _ K) (jg toy) (j_g _ K)) as [_ H].
  destruct (H (j_g0 _ K)) as [M [E R]]. exists M. split; [exact E|]. destruct R as [_ [R _]]. intros Z.
  assert (mx M = 0) by (rewrite <- (num_nval (mx M)), Z; reflexivity). rewrite H0 in R. cbn [toy jg ex ey] in R.
  apply neqb_eq in R. vm_compute in R. discriminate.
Qed.
Lemma case_C32_decompress : exists sqrt : Num 37 -> option (Num 37),
  (forall a, match sqrt a with Some b => b * b = a | None => ~ is_square a end) /\
  match subgroup_decompress sqrt 5 (num 2) (num 8) with Ok (Some P) => e_eqb P (mkE (num 8) (num 10)) | _ => false end = true.
Proof. exists sqrt_search. split; [apply sqrt_search_ok|]. vm_compute. reflexivity. Qed.
Lemma case_C33_cofactor : jubjub_ok toy.
Proof. exact toy_ok. Qed.
Lemma case_C34_from_scalar : match from_scalar sqrt_search toy (num 3) with Ok P => negb (e_is_zero P) && x_is_in_subgroup 5 (jd toy) (e_into_extended P) | Panic => false end = true.
Proof. vm_compute. reflexivity. Qed.
