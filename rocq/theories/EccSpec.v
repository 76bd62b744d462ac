(** Native curve arithmetic against the affine group law. *)

From Verif Require Export Edwards BitsTheory.
Open Scope num_scope.

(** Specification of the external square root. *)
Definition sqrt_ok {p} (sqrt : Num p -> option (Num p)) : Prop :=
  forall a, match sqrt a with Some b => b * b = a | None => ~ is_square a end.

(** Extended coordinates: the invariant and the affine point represented. *)
Definition aff {p} (X : XPoint p) : EPoint p := mkE (xx X / xz X) (xy X / xz X).
Definition xok {p} (d : Num p) (X : XPoint p) : Prop :=
  xz X <> 0 /\ xz X * xt X = xx X * xy X /\ on_curve d (aff X).
Definition scale {p} (P : EPoint p) (z : Num p) : XPoint p :=
  mkX (ex P * z) (ey P * z) (ex P * ey P * z) z.

(** The Montgomery form of the curve. *)
Definition on_mont {p} (A B : Num p) (M : MPoint p) : Prop :=
  B * (my M * my M) = mx M * mx M * mx M + A * (mx M * mx M) + mx M.

Lemma testbit_limbs n z i : (0 <= z)%Z -> (i < 64 * n)%nat ->
  Z.testbit (nth (i / 64) (limbs_of n z) 0%Z) (Z.of_nat (i mod 64)) = Z.testbit z (Z.of_nat i).
Proof.
  intros Hz Hi. pose proof (Nat.div_mod i 64 ltac:(lia)) as Dm. pose proof (Nat.mod_upper_bound i 64 ltac:(lia)).
  assert (Hq : (i / 64 < n)%nat) by (apply Nat.div_lt_upper_bound; lia).
  unfold limbs_of. rewrite nth_indep with (d' := (fun i => (z / 2 ^ (64 * Z.of_nat i)) mod 2 ^ 64)%Z 0%nat)
    by (rewrite map_length, seq_length; lia).
  rewrite (map_nth (fun i => (z / 2 ^ (64 * Z.of_nat i)) mod 2 ^ 64)%Z), seq_nth by lia. cbn [plus].
  rewrite Z.mod_pow2_bits_low by lia. rewrite Z.div_pow2_bits by lia. f_equal. lia.
Qed.
Lemma bititer_be_limbs n z : (0 <= z)%Z -> bititer_be (limbs_of n z) = rev (bits_of (64 * n) z).
Proof.
  intros Hz. unfold bititer_be, bits_of. rewrite limbs_of_length, <- map_rev. apply map_ext_in.
  intros i Hi. apply in_rev in Hi. apply in_seq in Hi. apply testbit_limbs; auto; lia.
Qed.

Section EccSpec.
Context {p : positive} (Hp : prime (Zpos p)).
Notation F := (Num p).
Add Field es_field : (num_field Hp) (morphism (@num_morph p), constants [num_cst], power_tac (@num_power p) [num_pow_cst]).
Variable d : F.
Hypothesis Hm1 : is_square (- (1) : F).
Hypothesis Hd : ~ is_square d.
Notation onc := (on_curve d).
Notation "P +e Q" := (eadd d P Q) (at level 50, left associativity).
Set Default Proof Using "Type*".
Let EG := edwards_group Hp d Hm1 Hd.
Let nz := @nmul_nonzero p Hp.
Implicit Types (P Q : EPoint p) (X Y R : XPoint p).

Lemma onc_emul z P : onc P -> onc (emul d z P).
Proof. apply (ok_zmul EG). Qed.

Lemma xok_scale X : xok d X -> X = scale (aff X) (xz X).
Proof.
  intros [Hz [Ht _]]. destruct X as [x y t z]; cbn [xx xy xt xz] in *. unfold scale, aff; cbn [xx xy xt xz ex ey].
  f_equal; try (field; auto; fail). apply (nmul_cancel_l Hp z); auto. rewrite Ht. field; auto.
Qed.
Lemma scale_ok P z : onc P -> z <> 0 -> xok d (scale P z) /\ aff (scale P z) = P.
Proof.
  intros HP Hz. assert (E : aff (scale P z) = P).
  { unfold aff, scale; cbn [xx xy xz]. apply e_ext; cbn [ex ey]; field; auto. }
  split; auto. split; [exact Hz|]. rewrite E. split; auto. cbn [scale xx xy xt xz]. ring.
Qed.

Lemma add_scale P Q z w : onc P -> onc Q ->
  let t := d * ex P * ex Q * ey P * ey Q in
  x_add d (scale P z) (scale Q w) = scale (P +e Q) (z * w * (z * w) * (1 + t) * (1 - t)).
Proof.
  intros H1 H2 t. destruct (complete Hp d Hm1 Hd P Q H1 H2) as [N1 N2]. fold t in N1, N2.
  unfold x_add, scale, eadd; cbn [xx xy xt xz ex ey]. fold t.
  f_equal; unfold t in *; field; auto.
Qed.
Lemma double_scale P z : onc P ->
  let t := d * ex P * ex P * ey P * ey P in
  x_double (scale P z) = scale (P +e P) (- (z * z * (z * z) * (1 + t) * (1 - t))).
Proof.
  intros H1 t. destruct (complete Hp d Hm1 Hd P P H1 H1) as [N1 N2]. fold t in N1, N2.
  assert (E1 : ey P * ey P - ex P * ex P = 1 + t) by (rewrite H1; unfold t; ring).
  unfold x_double, scale, eadd, nsquare, ndouble; cbn [xx xy xt xz ex ey]. fold t.
  assert (E2 : - (ex P * z * (ex P * z)) + ey P * z * (ey P * z) = z * z * (1 + t)) by (rewrite <- E1; ring).
  rewrite !E2.
  replace (- (ex P * z * (ex P * z)) - ey P * z * (ey P * z)) with (- (z * z) * (ey P * ey P + ex P * ex P)) by ring.
  replace (z * z * (1 + t) - (z * z + z * z)) with (- (z * z * (1 - t))) by ring.
  replace ((ex P * z + ey P * z) * (ex P * z + ey P * z) - ex P * z * (ex P * z) - ey P * z * (ey P * z))
    with (z * z * (ex P * ey P + ey P * ex P)) by ring.
  f_equal; field; auto.
Qed.

Lemma x_add_ok X Y : xok d X -> xok d Y -> xok d (x_add d X Y) /\ aff (x_add d X Y) = aff X +e aff Y.
Proof.
  intros HX HY. pose proof (xok_scale X HX) as EX. pose proof (xok_scale Y HY) as EY.
  destruct HX as [ZX [_ CX]], HY as [ZY [_ CY]]. destruct (complete Hp d Hm1 Hd _ _ CX CY) as [N1 N2].
  assert (E := add_scale (aff X) (aff Y) (xz X) (xz Y) CX CY). cbv zeta in E. rewrite <- EX, <- EY in E. rewrite E.
  apply scale_ok; [now apply (onc_add Hp)|]. auto.
Qed.
Lemma x_double_ok X : xok d X -> xok d (x_double X) /\ aff (x_double X) = aff X +e aff X.
Proof.
  intros HX. pose proof (xok_scale X HX) as EX.
  destruct HX as [ZX [_ CX]]. destruct (complete Hp d Hm1 Hd _ _ CX CX) as [N1 N2].
  assert (E := double_scale (aff X) (xz X) CX). cbv zeta in E. rewrite <- EX in E. rewrite E.
  apply scale_ok; [now apply (onc_add Hp)|].
  intros Z. refine (nz _ _ (nz _ _ (nz _ _ (nz _ _ ZX ZX) (nz _ _ ZX ZX)) N1) N2 _).
  match type of Z with - ?a = 0 => transitivity (- - a); [ring|rewrite Z; ring] end.
Qed.
Lemma x_negate_ok X : xok d X -> xok d (x_negate X) /\ aff (x_negate X) = eneg (aff X).
Proof.
  intros HX. pose proof (xok_scale X HX) as EX. destruct HX as [ZX [_ CX]].
  assert (E : x_negate X = scale (eneg (aff X)) (xz X)).
  { rewrite EX at 1. unfold x_negate, scale, eneg; cbn [xx xy xt xz ex ey]. f_equal; ring. }
  rewrite E. apply scale_ok; auto. now apply (onc_neg Hp d Hm1 Hd).
Qed.
Lemma x_zero_ok : xok d x_zero /\ aff (x_zero : XPoint p) = e_zero.
Proof.
  assert (E : x_zero = scale (e_zero : EPoint p) 1) by (unfold x_zero, scale, e_zero; cbn [ex ey]; f_equal; ring).
  rewrite E. apply scale_ok; [apply (onc_zero Hp d Hm1 Hd)|apply (n1_neq_n0 Hp)].
Qed.
Lemma e_into_extended_ok P : onc P -> xok d (e_into_extended P) /\ aff (e_into_extended P) = P.
Proof.
  intros H. assert (E : e_into_extended P = scale P 1) by (unfold e_into_extended, scale; f_equal; ring).
  rewrite E. apply scale_ok; auto. apply (n1_neq_n0 Hp).
Qed.
Lemma x_into_affine_ok X : xz X <> 0 -> x_into_affine X = Ok (aff X).
Proof. intros H. unfold x_into_affine. rewrite (ninv_ok _ H). reflexivity. Qed.
Lemma x_is_in_curve_iff X : x_is_in_curve d X = true <-> xok d X.
Proof.
  unfold x_is_in_curve, xok. rewrite !Bool.andb_true_iff, Bool.negb_true_iff, nis_zero_neq, !neqb_eq.
  destruct X as [x y t z]; cbn [xx xy xt xz]. unfold on_curve, aff, nsquare; cbn [ex ey xx xy xt xz].
  assert (K : z <> 0 -> z * t = x * y -> (y * y - x * x = z * z + d * (t * t) <->
    y / z * (y / z) - x / z * (x / z) = 1 + d * (x / z * (x / z)) * (y / z * (y / z)))).
  { intros Hz Ht. assert (Et : t = x * y / z) by (apply (nmul_cancel_l Hp z); auto; rewrite Ht; field; auto).
    split; intros E.
    - transitivity ((y * y - x * x) / (z * z)); [field; auto|]. rewrite E, Et. field; auto.
    - transitivity ((z * z) * (y / z * (y / z) - x / z * (x / z))); [field; auto|]. rewrite E, Et. field; auto. }
  split; [intros [[H1 H2] H3]|intros [H1 [H2 H3]]]; repeat split; auto; now apply K.
Qed.
Lemma x_eqb_iff X Y : xz X <> 0 -> xz Y <> 0 -> (x_eqb X Y = true <-> aff X = aff Y).
Proof.
  intros HX HY. unfold x_eqb. rewrite Bool.andb_true_iff, !neqb_eq.
  destruct X as [x y t z], Y as [x' y' t' z']; cbn [xx xy xz] in *. unfold aff; cbn [xx xy xz]. split.
  - intros [E1 E2]. apply e_ext; cbn [ex ey]; apply (div_eq Hp); auto.
  - intros E. pose proof (f_equal ex E) as E1. pose proof (f_equal ey E) as E2. cbn [ex ey] in *.
    split; [transitivity (x / z * (z * z')); [field; auto|rewrite E1; field; auto]
           |transitivity (y / z * (z * z')); [field; auto|rewrite E2; field; auto]].
Qed.
Lemma x_is_zero_iff X : xz X <> 0 -> (x_is_zero X = true <-> aff X = e_zero).
Proof.
  intros HX. unfold x_is_zero. rewrite Bool.andb_true_iff, nis_zero_eq, neqb_eq.
  destruct X as [x y t z]; cbn [xx xy xz] in *. unfold aff, e_zero; cbn [xx xy xz]. split.
  - intros [-> ->]. apply e_ext; cbn [ex ey]; field; auto.
  - intros E. pose proof (f_equal ex E) as E1. pose proof (f_equal ey E) as E2. cbn [ex ey] in *.
    split; [transitivity (x / z * z); [field; auto|rewrite E1; ring]|transitivity (y / z * z); [field; auto|rewrite E2; ring]].
Qed.
Lemma x_cofactor_ok X : xok d X -> xok d (x_mul_by_cofactor X) /\ aff (x_mul_by_cofactor X) = emul d 8 (aff X).
Proof.
  intros H. unfold x_mul_by_cofactor. destruct (x_double_ok X H) as [H1 E1]. destruct (x_double_ok _ H1) as [H2 E2].
  destruct (x_double_ok _ H2) as [H3 E3]. split; auto. rewrite E3, E2, E1. destruct H as [_ [_ C]].
  pose proof (onc_add Hp d Hm1 Hd _ _ C C) as C2. pose proof (onc_add Hp d Hm1 Hd _ _ C2 C2) as C4.
  unfold emul. change 8%Z with (2 * (2 * 2))%Z. rewrite (zmul_mul EG), (zmul_mul EG) by auto.
  now rewrite (zmul_2 EG (aff X)), (zmul_2 EG (aff X +e aff X)), (zmul_2 EG) by auto.
Qed.

Fixpoint val_be (bs : list bool) (a : Z) : Z :=
  match bs with [] => a | b :: bs => val_be bs (2 * a + if b then 1 else 0)%Z end.
Lemma val_be_app xs ys a : val_be (xs ++ ys) a = val_be ys (val_be xs a).
Proof. revert a. induction xs; cbn; auto. Qed.
Lemma val_be_rev bs : val_be (rev bs) 0 = bval bs.
Proof.
  induction bs as [|b bs IH]; cbn [rev bval val_be]; auto. rewrite val_be_app, IH. cbn [val_be]. destruct b; cbn [Z.b2z]; lia.
Qed.
Lemma x_mul_bits_from X P bits : forall R a, xok d X -> aff X = P -> xok d R -> aff R = emul d a P ->
  let S := fold_left (fun r (b : bool) => let r := x_double r in if b then x_add d r X else r) bits R in
  xok d S /\ aff S = emul d (val_be bits a) P.
Proof.
  induction bits as [|b bits IH]; intros R a HX EX HR ER; cbn [fold_left val_be]; [auto|].
  assert (CP : onc P) by (rewrite <- EX; apply HX).
  destruct (x_double_ok R HR) as [H1 E1]. cbv zeta. apply IH; auto.
  - destruct b; auto. apply x_add_ok; auto.
  - assert (E2 : aff (x_double R) = emul d (2 * a) P).
    { rewrite E1, ER. unfold emul. rewrite (zmul_mul EG), (zmul_2 EG); auto. now apply onc_emul. }
    destruct b; [|now rewrite Z.add_0_r]. destruct (x_add_ok (x_double R) X H1 HX) as [_ ->]. rewrite E2, EX.
    unfold emul. rewrite (zmul_add EG) by auto. f_equal. symmetry. now apply (zmul_1 EG).
Qed.
Lemma x_mul_raw_ok X n z : xok d X -> (0 <= z < 2 ^ Z.of_nat (64 * n))%Z ->
  xok d (x_mul_raw d X (limbs_of n z)) /\ aff (x_mul_raw d X (limbs_of n z)) = emul d z (aff X).
Proof.
  intros HX Hz. unfold x_mul_raw. rewrite bititer_be_limbs by lia.
  destruct (x_mul_bits_from X (aff X) (rev (bits_of (64 * n) z)) x_zero 0%Z) as [H E]; auto; try apply x_zero_ok.
  split; [exact H|]. transitivity (emul d (val_be (rev (bits_of (64 * n) z)) 0) (aff X)); [exact E|]. rewrite val_be_rev, bval_bits_of, Z.mod_small; auto.
Qed.
Lemma x_mul_ok {l} X (s : Num l) : xok d X -> xok d (x_mul d X s) /\ aff (x_mul d X s) = emul d (nval s) (aff X).
Proof.
  intros HX. apply x_mul_raw_ok; auto. split; [apply nval_range|apply nval_lt_limbs].
Qed.
Lemma x_mul_char l X : xok d X -> xok d (x_mul_raw d X (char_repr l)) /\
  aff (x_mul_raw d X (char_repr l)) = emul d (Zpos l) (aff X).
Proof.
  intros HX. apply x_mul_raw_ok; auto. pose proof (num_limbs_bound l).
  replace (Z.of_nat (64 * num_limbs l)) with (64 * Z.of_nat (num_limbs l))%Z by lia. lia.
Qed.
Lemma x_is_in_subgroup_iff l X : xok d X -> (x_is_in_subgroup l d X = true <-> emul d (Zpos l) (aff X) = e_zero).
Proof.
  intros HX. destruct (x_mul_char l X HX) as [[Hz _] E]. unfold x_is_in_subgroup. rewrite x_is_zero_iff, E by auto. reflexivity.
Qed.

Lemma e_mul_ok {l} P (s : Num l) : onc P -> e_mul d P s = Ok (emul d (nval s) P).
Proof.
  intros H. destruct (e_into_extended_ok P H) as [HX EX]. destruct (x_mul_ok _ s HX) as [[Hz _] E].
  unfold e_mul. rewrite x_into_affine_ok, E, EX; auto.
Qed.
Lemma e_add_ok P Q : onc P -> onc Q -> e_add d P Q = Ok (P +e Q).
Proof.
  intros H1 H2. destruct (e_into_extended_ok P H1) as [HX EX]. destruct (e_into_extended_ok Q H2) as [HY EY].
  destruct (x_add_ok _ _ HX HY) as [[Hz _] E]. unfold e_add. rewrite x_into_affine_ok, E, EX, EY; auto.
Qed.
Lemma e_double_ok P : onc P -> e_double P = Ok (P +e P).
Proof.
  intros H1. destruct (e_into_extended_ok P H1) as [HX EX].
  destruct (x_double_ok _ HX) as [[Hz _] E]. unfold e_double. rewrite x_into_affine_ok, E, EX; auto.
Qed.
Lemma e_cofactor_ok P : onc P -> e_mul_by_cofactor P = Ok (emul d 8 P).
Proof.
  intros H1. destruct (e_into_extended_ok P H1) as [HX EX].
  destruct (x_cofactor_ok _ HX) as [[Hz _] E]. unfold e_mul_by_cofactor. rewrite x_into_affine_ok, E, EX; auto.
Qed.

(** ** The points with x = 0 and the point of order two *)
Definition T2 : EPoint p := mkE 0 (- (1)).
Lemma m1_neq_1 : - (1) <> 1 :> F.
Proof.
  intros E. apply (two_neq0 Hp d Hm1 Hd). transitivity (1 - - (1) : F); [ring|]. rewrite E. ring.
Qed.
Lemma T2_neq : T2 <> e_zero.
Proof. intros E. apply m1_neq_1. exact (f_equal ey E). Qed.
Lemma onc_T2 : onc T2.
Proof. unfold on_curve, T2; cbn [ex ey]. ring. Qed.
Lemma T2_double : T2 +e T2 = e_zero.
Proof.
  unfold eadd, T2, e_zero; cbn [ex ey]. pose proof (n1_neq_n0 Hp). apply e_ext; cbn [ex ey].
  - replace (1 + d * 0 * 0 * - (1) * - (1)) with (1 : F) by ring. field; auto.
  - replace (1 - d * 0 * 0 * - (1) * - (1)) with (1 : F) by ring. field; auto.
Qed.
Lemma T2_odd k : Z.Odd k -> emul d k T2 = T2.
Proof.
  intros [m ->]. unfold emul. rewrite (zmul_add EG) by apply onc_T2. rewrite Z.mul_comm, (zmul_mul EG) by apply onc_T2.
  rewrite (zmul_2 EG), T2_double, (zmul_zero EG), (gadd0 _ _ _ _ EG) by (try apply onc_T2; apply (ok_zmul EG), onc_T2).
  apply (zmul_1 EG), onc_T2.
Qed.
Lemma onc_x0 P : onc P -> ex P = 0 -> P = e_zero \/ P = T2.
Proof.
  intros H E. unfold on_curve in H. rewrite E in H.
  assert (E2 : ey P * ey P = 1 * 1) by (transitivity (ey P * ey P - 0 * 0 : F); [ring|]; rewrite H; ring).
  destruct (square_roots Hp _ _ E2) as [Y|Y]; [left|right]; apply e_ext; cbn [ex ey e_zero T2]; auto.
Qed.
Lemma one_d_neq0 : 1 + d <> 0.
Proof. intros Z. apply Hd. replace d with (- (1) : F); auto. transitivity ((1 + d) - 1 : F); [rewrite Z; ring|ring]. Qed.
Lemma onc_y1 P : onc P -> ey P = 1 -> P = e_zero.
Proof.
  intros H E. unfold on_curve in H. rewrite E in H.
  assert (E2 : ex P * ex P * (1 + d) = 0).
  { transitivity (1 + d * (ex P * ex P) * (1 * 1) - (1 * 1 - ex P * ex P)); [ring|]. rewrite H. ring. }
  pose proof one_d_neq0 as N.
  destruct (nmul_integral Hp _ _ E2) as [X|X]; [|contradiction].
  destruct (nmul_integral Hp _ _ X) as [Y|Y]; apply e_ext; auto.
Qed.
Lemma same_x P Q : onc P -> onc Q -> ex P = ex Q -> Q = P \/ Q = T2 +e eneg P.
Proof.
  intros HP HQ E.
  assert (HN : 1 - d * (ex P * ex P) <> 0).
  { intros Z. destruct (num_eq_dec (ex P) 0) as [X|X].
    - apply (n1_neq_n0 Hp). rewrite <- Z, X. ring.
    - apply Hd. exists (1 / ex P). replace d with ((1 - (1 - d * (ex P * ex P))) / (ex P * ex P)) by (field; auto).
      rewrite Z. field; auto. }
  assert (E2 : ey Q * ey Q = ey P * ey P).
  { apply (nmul_cancel_l Hp (1 - d * (ex P * ex P))); auto. unfold on_curve in HP, HQ. rewrite <- E in HQ.
    transitivity ((ey Q * ey Q - ex P * ex P) - d * (ex P * ex P) * (ey Q * ey Q) + ex P * ex P); [ring|].
    rewrite HQ. transitivity ((ey P * ey P - ex P * ex P) - d * (ex P * ex P) * (ey P * ey P) + ex P * ex P); [|ring].
    rewrite HP. ring. }
  destruct (square_roots Hp _ _ E2) as [Y|Y]; [left; now apply e_ext|right].
  pose proof (n1_neq_n0 Hp). unfold eadd, T2, eneg; cbn [ex ey]. apply e_ext; cbn [ex ey].
  - replace (1 + d * 0 * - ex P * - (1) * ey P) with (1 : F) by ring. rewrite <- E. field; auto.
  - replace (1 - d * 0 * - ex P * - (1) * ey P) with (1 : F) by ring. rewrite Y. field; auto.
Qed.
Lemma T2_sub P : T2 +e eneg P = mkE (ex P) (- ey P).
Proof.
  pose proof (n1_neq_n0 Hp). unfold eadd, T2, eneg; cbn [ex ey]. apply e_ext; cbn [ex ey].
  - replace (1 + d * 0 * - ex P * - (1) * ey P) with (1 : F) by ring. field; auto.
  - replace (1 - d * 0 * - ex P * - (1) * ey P) with (1 : F) by ring. field; auto.
Qed.

(** ** Decompression *)
Lemma den_y (y : F) : d * (y * y) + 1 <> 0.
Proof.
  intros Z. destruct (num_eq_dec y 0) as [X|X].
  - apply (n1_neq_n0 Hp). rewrite <- Z, X. ring.
  - apply Hd. destruct Hm1 as [i Hi]. exists (i / y).
    transitivity (i * i / (y * y)); [field; auto|]. rewrite Hi.
    replace d with (((d * (y * y) + 1) - 1) / (y * y)) at 1 by (field; auto). rewrite Z. field; auto.
Qed.
Lemma den_x (x : F) : 1 - d * (x * x) <> 0.
Proof.
  intros Z. destruct (num_eq_dec x 0) as [X|X].
  - apply (n1_neq_n0 Hp). rewrite <- Z, X. ring.
  - apply Hd. exists (1 / x). replace d with ((1 - (1 - d * (x * x))) / (x * x)) by (field; auto).
    rewrite Z. field; auto.
Qed.
Lemma onc_iff_y x y : onc (mkE x y) <-> x * x = (y * y - 1) / (d * (y * y) + 1).
Proof.
  pose proof (den_y y) as N. unfold on_curve; cbn [ex ey]. split; intros H.
  - transitivity (((x * x) * (d * (y * y) + 1)) / (d * (y * y) + 1)); [field; auto|]. f_equal.
    transitivity ((1 + d * (x * x) * (y * y)) + x * x - 1); [ring|]. rewrite <- H. ring.
  - apply (sub_eq0 Hp). transitivity (y * y - 1 - (x * x) * (d * (y * y) + 1)); [ring|]. rewrite H. field; auto.
Qed.
Lemma onc_iff_x x y : onc (mkE x y) <-> y * y = (x * x + 1) / (1 - d * (x * x)).
Proof.
  pose proof (den_x x) as N. unfold on_curve; cbn [ex ey]. split; intros H.
  - transitivity (((y * y) * (1 - d * (x * x))) / (1 - d * (x * x))); [field; auto|]. f_equal.
    transitivity ((y * y - x * x) - d * (x * x) * (y * y) + x * x); [ring|]. rewrite H. ring.
  - apply (sub_eq0 Hp). transitivity ((y * y) * (1 - d * (x * x)) - (x * x + 1)); [ring|]. rewrite H. field; auto.
Qed.
Lemma p_odd : Z.odd (Zpos p) = true.
Proof.
  destruct (Z.odd (Zpos p)) eqn:E; auto. exfalso. apply (two_neq0 Hp d Hm1 Hd).
  assert (Ev : Z.even (Zpos p) = true) by (rewrite <- Z.negb_odd, E; reflexivity).
  apply Z.even_spec in Ev. destruct Ev as [k Ek]. destruct (prime_divisors _ Hp 2) as [X|[X|[X|X]]]; try lia.
  { exists k. lia. }
  unfold n0, n1. rewrite <- num_add. apply num_eq_mod. rewrite <- X. reflexivity.
Qed.
Lemma parity_neg (x : F) : x <> 0 -> Z.odd (nval (- x)) = negb (Z.odd (nval x)).
Proof. intros H. rewrite (nval_neg _ H), Z.odd_sub, p_odd. now destruct (Z.odd (nval x)). Qed.

Section Sqrt.
Variable sqrt : F -> option F.
Hypothesis Hs : sqrt_ok sqrt.

Lemma get_for_y_ok y sign : exists o, get_for_y sqrt d y sign = Ok o /\
  match o with
  | Some P => onc P /\ ey P = y /\ (ex P <> 0 -> Z.odd (nval (ex P)) = sign)
  | None => forall x, ~ onc (mkE x y)
  end.
Proof.
  unfold get_for_y, nsquare. rewrite (ndiv_ok _ _ (den_y y)). cbn [rbind]. eexists; split; [reflexivity|].
  pose proof (Hs ((y * y - 1) / (d * (y * y) + 1))) as K. destruct (sqrt _) as [x|].
  - assert (C : onc (mkE x y)) by (apply onc_iff_y; auto).
    destruct (Bool.eqb_spec (Z.odd (nval x)) sign) as [E|E]; cbn [negb].
    + cbn [ex ey]. auto.
    + split; [|split; [reflexivity|]].
      * apply onc_iff_y. rewrite <- K. ring.
      * cbn [ex]. intros N. rewrite parity_neg; [|intros X; apply N; rewrite X; ring].
        destruct (Z.odd (nval x)), sign; cbn; congruence.
  - intros x C. apply K. exists x. now apply onc_iff_y.
Qed.

Lemma subgroup_decompress_ok l x : Z.Odd (Zpos l) -> exists o, subgroup_decompress sqrt l d x = Ok o /\
  match o with
  | Some P => onc P /\ ex P = x /\ emul d (Zpos l) P = e_zero /\
      (forall Q, onc Q -> ex Q = x -> emul d (Zpos l) Q = e_zero -> Q = P)
  | None => forall P, onc P -> ex P = x -> emul d (Zpos l) P <> e_zero
  end.
Proof.
  intros Ho. unfold subgroup_decompress, nsquare. rewrite (ndiv_ok _ _ (den_x x)). cbn [rbind].
  pose proof (Hs ((x * x + 1) / (1 - d * (x * x)))) as K. destruct (sqrt _) as [y|].
  2:{ eexists; split; [reflexivity|]. intros P C <- _. apply K. exists (ey P). apply onc_iff_x. now destruct P. }
  assert (C : onc (mkE x y)) by now apply onc_iff_x.
  destruct (e_into_extended_ok _ C) as [HX EX]. destruct (x_mul_char l _ HX) as [HL EL]. rewrite EX in EL.
  rewrite x_into_affine_ok by apply HL. cbn [rbind]. rewrite EL. set (LP := emul d (Zpos l) (mkE x y)) in *.
  assert (CL : onc LP) by (apply onc_emul; auto).
  assert (CT : onc (T2 +e eneg (mkE x y))) by (apply (onc_add Hp); auto using onc_T2, onc_neg).
  assert (LT : emul d (Zpos l) (T2 +e eneg (mkE x y)) = T2 +e eneg LP).
  { unfold emul. rewrite (zmul_distr EG) by (auto using onc_T2; now apply (onc_neg Hp d Hm1 Hd)). fold (emul d (Zpos l) T2).
    rewrite T2_odd by auto. f_equal. now apply (zmul_oppr EG). }
  assert (U : forall P Q, onc P -> ex P = x -> emul d (Zpos l) P = e_zero -> onc Q -> ex Q = x -> emul d (Zpos l) Q = e_zero -> Q = P).
  { intros P Q HP EP ZP HQ EQ ZQ. destruct (same_x P Q HP HQ ltac:(congruence)) as [|E]; auto. exfalso.
    apply T2_neq. rewrite <- ZQ, E. unfold emul. rewrite (zmul_distr EG) by (auto using onc_T2; now apply (onc_neg Hp d Hm1 Hd)).
    fold (emul d (Zpos l) T2). rewrite T2_odd, (zmul_oppr EG) by auto. fold (emul d (Zpos l) P). rewrite ZP.
    rewrite (gopp0 EG). symmetry. rewrite (eadd_comm Hp d Hm1 Hd). apply (eadd_zero Hp d Hm1 Hd). }
  eexists; split; [reflexivity|]. destruct (nis_zero (ex LP)) eqn:EZ.
  - apply nis_zero_eq in EZ. destruct (onc_x0 _ CL EZ) as [E|E]; rewrite E in *; cbn [ey e_zero T2].
    + rewrite neqb_refl. split; [auto|]. split; [reflexivity|]. split; [exact E|]. intros Q. now apply U.
    + rewrite (proj2 (neqb_neq _ _) m1_neq_1). change (mkE x (- y)) with (mkE (ex (mkE x y)) (- ey (mkE x y))). rewrite <- (T2_sub (mkE x y)).
      assert (Z : emul d (Zpos l) (T2 +e eneg (mkE x y)) = e_zero) by (rewrite LT; apply (gaddNr EG); apply onc_T2).
      assert (X : ex (T2 +e eneg (mkE x y)) = x) by (rewrite T2_sub; reflexivity).
      split; [auto|]. split; [auto|]. split; [auto|]. intros Q. now apply U.
  - intros P HP EP ZP. apply nis_zero_neq in EZ. apply EZ.
    destruct (same_x P (mkE x y) HP C EP) as [E|E].
    + unfold LP. rewrite E, ZP. reflexivity.
    + unfold LP. rewrite E. unfold emul. rewrite (zmul_distr EG) by (auto using onc_T2; now apply (onc_neg Hp d Hm1 Hd)).
      fold (emul d (Zpos l) T2). rewrite T2_odd, (zmul_oppr EG) by auto. fold (emul d (Zpos l) P). rewrite ZP, (gopp0 EG).
      rewrite (eadd_comm Hp d Hm1 Hd), (eadd_zero Hp d Hm1 Hd). reflexivity.
Qed.
End Sqrt.
End EccSpec.
