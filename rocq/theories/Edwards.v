(** The twisted Edwards curve y^2 - x^2 = 1 + d x^2 y^2 with -1 a square and d
    not a square: the affine addition law is complete and a group law. *)

From Coq Require Export Znumtheory.
From Verif Require Export Ecc FieldTheory Group.
Open Scope num_scope.

Definition on_curve {p} (d : Num p) (P : EPoint p) : Prop :=
  ey P * ey P - ex P * ex P = 1 + d * (ex P * ex P) * (ey P * ey P).
(** the affine addition law *)
Definition eadd {p} (d : Num p) (P Q : EPoint p) : EPoint p :=
  let t := d * ex P * ex Q * ey P * ey Q in
  mkE ((ex P * ey Q + ey P * ex Q) / (1 + t)) ((ey P * ey Q + ex P * ex Q) / (1 - t)).
Definition eneg {p} (P : EPoint p) : EPoint p := mkE (- ex P) (ey P).
(** integer multiples *)
Definition emul {p} (d : Num p) : Z -> EPoint p -> EPoint p := zmul (eadd d) e_zero eneg.

Lemma e_ext {p} (P Q : EPoint p) : ex P = ex Q -> ey P = ey Q -> P = Q.
Proof. destruct P, Q; cbn. congruence. Qed.
Lemma e_eqb_eq {p} (P Q : EPoint p) : e_eqb P Q = true <-> P = Q.
Proof.
  unfold e_eqb. rewrite Bool.andb_true_iff, !neqb_eq. split; [intros [H1 H2]; now apply e_ext|now intros ->].
Qed.
Lemma epoint_dec {p} (P Q : EPoint p) : {P = Q} + {P <> Q}.
Proof.
  destruct (e_eqb P Q) eqn:E; [left; now apply e_eqb_eq|right]. intros ->.
  assert (X : e_eqb Q Q = true) by now apply e_eqb_eq. congruence.
Qed.
Lemma e_is_in_curve_iff {p} (d : Num p) P : e_is_in_curve d P = true <-> on_curve d P.
Proof. unfold e_is_in_curve, on_curve, nsquare. cbv zeta. apply neqb_eq. Qed.

Section Edwards.
Context {p : positive} (Hp : prime (Zpos p)).
Notation F := (Num p).
Add Field ed_field : (num_field Hp) (morphism (@num_morph p), constants [num_cst], power_tac (@num_power p) [num_pow_cst]).
Variable d : F.
Hypothesis Hm1 : is_square (- (1) : F).
Hypothesis Hd : ~ is_square d.
Notation onc := (on_curve d).
Notation "P +e Q" := (eadd d P Q) (at level 50, left associativity).
Set Default Proof Using "Type*".

Lemma div_eq (a b c e : F) : b <> 0 -> e <> 0 -> a * e = c * b -> a / b = c / e.
Proof using Hp. intros Hb He E. transitivity ((a * e) / (b * e)); [field; auto|]. rewrite E. field; auto. Qed.
Lemma sub_neq (a b : F) : a <> b -> a - b <> 0.
Proof using Hp. intros H E. apply H. replace a with ((a - b) + b) by ring. rewrite E. ring. Qed.
Lemma sub_eq0 (a b : F) : a - b = 0 -> a = b.
Proof using Hp. intros E. replace a with ((a - b) + b) by ring. rewrite E. ring. Qed.
Lemma d_neq0 : d <> 0.
Proof. intros E. apply Hd. exists 0. rewrite E. ring. Qed.
Lemma two_neq0 : (1 + 1 : F) <> 0.
Proof.
  intros E. destruct Hm1 as [i Hi]. apply Hd.
  (* in characteristic 2 every element is a square *)
  assert (E2 : p = 2%positive).
  { assert (X : nval (1 + 1 : F) = 0%Z) by (rewrite E; apply nval_zero).
    unfold nadd in X. rewrite nval_num in X. unfold n1 in X. rewrite !nval_num in X.
    pose proof (prime_gt1 Hp) as H1. rewrite (Z.mod_small 1) in X by lia.
    destruct (Z.eq_dec (Zpos p) 2) as [Y|Y]; [lia|]. rewrite Z.mod_small in X; lia. }
  subst p. exists d. apply num_eq. unfold nmul. rewrite nval_num. pose proof (nval_range d).
  assert (nval d = 0 \/ nval d = 1)%Z as [-> | ->] by lia; reflexivity.
Qed.

(** Completeness of the addition law. *)
Lemma complete_aux (i x1 y1 x2 y2 e : F) : i * i = - (1) -> e * e = 1 ->
  y1 * y1 - x1 * x1 = 1 + d * (x1 * x1) * (y1 * y1) -> y2 * y2 - x2 * x2 = 1 + d * (x2 * x2) * (y2 * y2) ->
  d * x1 * x2 * y1 * y2 = e -> False.
Proof.
  intros Hi He H1 H2 E.
  assert (Hx1 : x1 <> 0) by (intros Z; apply (n1_neq_n0 Hp); rewrite <- He, <- E, Z; ring).
  assert (Hy1 : y1 <> 0) by (intros Z; apply (n1_neq_n0 Hp); rewrite <- He, <- E, Z; ring).
  assert (Hx2 : x2 <> 0) by (intros Z; apply (n1_neq_n0 Hp); rewrite <- He, <- E, Z; ring).
  assert (Hy2 : y2 <> 0) by (intros Z; apply (n1_neq_n0 Hp); rewrite <- He, <- E, Z; ring).
  assert (Hi0 : i <> 0).
  { intros Z. apply (n1_neq_n0 Hp). replace (n1 : F) with (- (i * i)) by (rewrite Hi; ring). rewrite Z. ring. }
  (* (y1 + s i e x1)^2 = d x1^2 y1^2 (y2 + s i x2)^2 for s = 1, -1 *)
  assert (K : forall s, s * s = 1 ->
     (y1 + s * i * e * x1) * (y1 + s * i * e * x1) = d * ((x1 * y1 * (y2 + s * i * x2)) * (x1 * y1 * (y2 + s * i * x2)))).
  { intros s Hs.
    replace ((y1 + s * i * e * x1) * (y1 + s * i * e * x1))
      with (y1 * y1 + (s * s) * (i * i) * (e * e) * (x1 * x1) + (1 + 1) * s * i * e * (x1 * y1)) by ring.
    replace (d * ((x1 * y1 * (y2 + s * i * x2)) * (x1 * y1 * (y2 + s * i * x2))))
      with (d * (x1 * x1) * (y1 * y1) * (y2 * y2 + (s * s) * (i * i) * (x2 * x2)) + (1 + 1) * s * i * (d * x1 * x2 * y1 * y2) * (x1 * y1)) by ring.
    rewrite Hs, Hi, He, E. replace (y2 * y2 + 1 * - (1) * (x2 * x2)) with (y2 * y2 - x2 * x2) by ring. rewrite H2.
    replace (d * (x1 * x1) * (y1 * y1) * (1 + d * (x2 * x2) * (y2 * y2)))
      with (d * (x1 * x1) * (y1 * y1) + (d * x1 * x2 * y1 * y2) * (d * x1 * x2 * y1 * y2)) by ring.
    rewrite E, He. replace (y1 * y1 + 1 * - (1) * 1 * (x1 * x1)) with (y1 * y1 - x1 * x1) by ring. rewrite H1. ring. }
  assert (K2 : forall s, s * s = 1 -> y2 + s * i * x2 = 0).
  { intros s Hs. destruct (num_eq_dec (y2 + s * i * x2) 0) as [|N]; auto. exfalso. apply Hd.
    set (w := x1 * y1 * (y2 + s * i * x2)). assert (Hw : w <> 0) by (unfold w; auto using (nmul_nonzero Hp)).
    exists ((y1 + s * i * e * x1) / w). pose proof (K s Hs) as Ks. fold w in Ks.
    transitivity (((y1 + s * i * e * x1) * (y1 + s * i * e * x1)) / (w * w)); [field; auto|]. rewrite Ks. field; auto. }
  pose proof (K2 1 ltac:(ring)) as A1. pose proof (K2 (- (1)) ltac:(ring)) as A2.
  assert (A3 : (1 + 1) * y2 = 0).
  { transitivity ((y2 + 1 * i * x2) + (y2 + - (1) * i * x2)); [ring|]. rewrite A1, A2. ring. }
  destruct (nmul_integral Hp _ _ A3) as [X|X]; [now apply two_neq0|auto].
Qed.

Lemma complete (P Q : EPoint p) : onc P -> onc Q ->
  1 + d * ex P * ex Q * ey P * ey Q <> 0 /\ 1 - d * ex P * ex Q * ey P * ey Q <> 0.
Proof.
  intros H1 H2. destruct Hm1 as [i Hi]. split; intros E.
  - apply (complete_aux i (ex P) (ey P) (ex Q) (ey Q) (- (1))); auto; [ring|].
    replace (d * ex P * ex Q * ey P * ey Q) with ((1 + d * ex P * ex Q * ey P * ey Q) - 1) by ring. rewrite E. ring.
  - apply (complete_aux i (ex P) (ey P) (ex Q) (ey Q) 1); auto; [ring|].
    replace (d * ex P * ex Q * ey P * ey Q) with (1 - (1 - d * ex P * ex Q * ey P * ey Q)) by ring. rewrite E. ring.
Qed.

Lemma onc_zero : onc e_zero.
Proof. unfold on_curve, e_zero; cbn [ex ey]. ring. Qed.
Lemma onc_neg P : onc P -> onc (eneg P).
Proof. unfold on_curve, eneg; cbn [ex ey]. intros H. transitivity (ey P * ey P - ex P * ex P); [ring|]. rewrite H. ring. Qed.

Ltac curve P x y H := destruct P as [x y]; unfold on_curve in H; cbn [ex ey] in H.
(** d x^2 y^2 as the head monomial *)
Lemma head (x y : F) : y * y - x * x = 1 + d * (x * x) * (y * y) -> d * x ^ 2 * y ^ 2 = y ^ 2 - x ^ 2 - 1.
Proof. intros H. transitivity (1 + d * (x * x) * (y * y) - 1); [ring|]. rewrite <- H. ring. Qed.

Lemma onc_add P Q : onc P -> onc Q -> onc (P +e Q).
Proof.
  intros H1 H2. destruct (complete P Q H1 H2) as [N1 N2].
  curve P x1 y1 H1. curve Q x2 y2 H2. cbn [ex ey] in *.
  unfold on_curve, eadd; cbn [ex ey]. apply head in H1, H2.
  set (t := d * x1 * x2 * y1 * y2) in *.
  assert (K : (y1 * y2 + x1 * x2) ^ 2 * (1 + t) ^ 2 - (x1 * y2 + y1 * x2) ^ 2 * (1 - t) ^ 2 =
              (1 + t) ^ 2 * (1 - t) ^ 2 + d * (x1 * y2 + y1 * x2) ^ 2 * (y1 * y2 + x1 * x2) ^ 2).
  { unfold t. ring [H1 H2]. }
  apply sub_eq0.
  transitivity (((y1 * y2 + x1 * x2) ^ 2 * (1 + t) ^ 2 - (x1 * y2 + y1 * x2) ^ 2 * (1 - t) ^ 2
     - ((1 + t) ^ 2 * (1 - t) ^ 2 + d * (x1 * y2 + y1 * x2) ^ 2 * (y1 * y2 + x1 * x2) ^ 2)) / ((1 + t) ^ 2 * (1 - t) ^ 2)).
  - field. auto.
  - rewrite K. field. auto.
Qed.

Lemma eadd_comm P Q : P +e Q = Q +e P.
Proof.
  unfold eadd. replace (d * ex Q * ex P * ey Q * ey P) with (d * ex P * ex Q * ey P * ey Q) by ring.
  f_equal; f_equal; ring.
Qed.
Lemma eadd_zero P : e_zero +e P = P.
Proof.
  unfold eadd, e_zero; cbn [ex ey]. apply e_ext; cbn [ex ey].
  - replace (1 + d * 0 * ex P * 1 * ey P) with (n1 : F) by ring. field. apply (n1_neq_n0 Hp).
  - replace (1 - d * 0 * ex P * 1 * ey P) with (n1 : F) by ring. field. apply (n1_neq_n0 Hp).
Qed.
Lemma eadd_neg P : onc P -> eneg P +e P = e_zero.
Proof.
  intros H. destruct (complete (eneg P) P (onc_neg P H) H) as [N1 N2]. curve P x y H. cbn [ex ey eneg] in *.
  unfold eadd, e_zero, eneg; cbn [ex ey] in *. apply e_ext; cbn [ex ey].
  - replace (- x * y + y * x) with (0 : F) by ring. field; auto.
  - replace (y * y + - x * x) with (1 - d * - x * x * y * y); [field; auto|].
    transitivity (1 + d * (x * x) * (y * y)); [ring|]. rewrite <- H. ring.
Qed.
Lemma eadd_assoc P Q R : onc P -> onc Q -> onc R -> (P +e Q) +e R = P +e (Q +e R).
Proof.
  intros H1 H2 H3. destruct (complete P Q H1 H2) as [N1 N2]. destruct (complete Q R H2 H3) as [N3 N4].
  destruct (complete (P +e Q) R (onc_add P Q H1 H2) H3) as [N5 N6].
  destruct (complete P (Q +e R) H1 (onc_add Q R H2 H3)) as [N7 N8].
  curve P x1 y1 H1. curve Q x2 y2 H2. curve R x3 y3 H3. apply head in H1, H2, H3.
  unfold eadd in *; cbn [ex ey] in *.
  set (t := d * x1 * x2 * y1 * y2) in *. set (w := d * x2 * x3 * y2 * y3) in *.
  set (nx := x1 * y2 + y1 * x2) in *. set (ny := y1 * y2 + x1 * x2) in *.
  set (mx := x2 * y3 + y2 * x3) in *. set (my := y2 * y3 + x2 * x3) in *.
  assert (M5 : (1 + t) * (1 - t) + d * nx * x3 * ny * y3 <> 0).
  { intros E. apply N5. transitivity (((1 + t) * (1 - t) + d * nx * x3 * ny * y3) / ((1 + t) * (1 - t))); [field; auto|]. rewrite E. field; auto. }
  assert (M6 : (1 + t) * (1 - t) - d * nx * x3 * ny * y3 <> 0).
  { intros E. apply N6. transitivity (((1 + t) * (1 - t) - d * nx * x3 * ny * y3) / ((1 + t) * (1 - t))); [field; auto|]. rewrite E. field; auto. }
  assert (M7 : (1 + w) * (1 - w) + d * x1 * mx * y1 * my <> 0).
  { intros E. apply N7. transitivity (((1 + w) * (1 - w) + d * x1 * mx * y1 * my) / ((1 + w) * (1 - w))); [field; auto|]. rewrite E. field; auto. }
  assert (M8 : (1 + w) * (1 - w) - d * x1 * mx * y1 * my <> 0).
  { intros E. apply N8. transitivity (((1 + w) * (1 - w) - d * x1 * mx * y1 * my) / ((1 + w) * (1 - w))); [field; auto|]. rewrite E. field; auto. }
  apply e_ext; cbn [ex ey].
  - transitivity ((nx * y3 * (1 - t) + ny * x3 * (1 + t)) / ((1 + t) * (1 - t) + d * nx * x3 * ny * y3)); [field; auto|].
    transitivity ((x1 * my * (1 + w) + y1 * mx * (1 - w)) / ((1 + w) * (1 - w) + d * x1 * mx * y1 * my)); [|field; auto].
    apply div_eq; auto. unfold nx, ny, mx, my, t, w. ring [H1 H2 H3].
  - transitivity ((ny * y3 * (1 + t) + nx * x3 * (1 - t)) / ((1 + t) * (1 - t) - d * nx * x3 * ny * y3)); [field; auto|].
    transitivity ((y1 * my * (1 + w) + x1 * mx * (1 - w)) / ((1 + w) * (1 - w) - d * x1 * mx * y1 * my)); [|field; auto].
    apply div_eq; auto. unfold nx, ny, mx, my, t, w. ring [H1 H2 H3].
Qed.

Lemma edwards_group : ab_group onc (eadd d) e_zero eneg.
Proof.
  constructor; auto using onc_add, onc_zero, onc_neg, eadd_assoc, eadd_zero, eadd_neg.
  intros; apply eadd_comm.
Qed.
End Edwards.
