(** The Montgomery form: conversions, chord and tangent formulas, from_scalar. *)

From Verif Require Export EccSpec.
Open Scope num_scope.

(** A = 2 (1 - d) / (1 + d), B = -4 / (1 + d) (bn256.rs:27-28, bls12_381.rs). *)
Definition mont_ok {p} (d A B : Num p) : Prop :=
  A * (1 + d) = (1 + 1) * (1 - d) /\ B * (1 + d) = - ((1 + 1) * (1 + 1)).

(** [M] is the Montgomery image of the non-zero point [P]. *)
Definition mrel {p} (A B : Num p) (P : EPoint p) (M : MPoint p) : Prop :=
  on_mont A B M /\ mx M * (1 - ey P) = 1 + ey P /\ ex P * my M = mx M.

(** Chord and tangent formulas (circuit/ecc.rs:251-274). *)
Definition m_chord {p} (A B : Num p) (M N : MPoint p) : MPoint p :=
  let l := (my N - my M) / (mx N - mx M) in
  let b_l2 := B * (l * l) in
  mkM (b_l2 - A - mx M - mx N) (l * ((1 + 1) * mx M + mx N + A - b_l2) - my M).
Definition m_tangent {p} (A B : Num p) (M : MPoint p) : MPoint p :=
  let l := ((1 + 1 + 1) * (mx M * mx M) + (1 + 1) * A * mx M + 1) / ((1 + 1) * B * my M) in
  let b_l2 := B * (l * l) in
  mkM (b_l2 - A - (1 + 1) * mx M) (l * ((1 + 1 + 1) * mx M + A - b_l2) - my M).

Section Mont.
Context {p : positive} (Hp : prime (Zpos p)).
Notation F := (Num p).
Add Field ms_field : (num_field Hp) (morphism (@num_morph p), constants [num_cst], power_tac (@num_power p) [num_pow_cst]).
Variables d A B : F.
Hypothesis Hm1 : is_square (- (1) : F).
Hypothesis Hd : ~ is_square d.
Hypothesis HM : mont_ok d A B.
Notation onc := (on_curve d).
Notation onm := (on_mont A B).
Notation "P +e Q" := (eadd d P Q) (at level 50, left associativity).
Implicit Types (P Q : EPoint p) (M N : MPoint p).
Set Default Proof Using "Type*".
Let EG := edwards_group Hp d Hm1 Hd.
Let nz := @nmul_nonzero p Hp.
Let H2 := two_neq0 Hp d Hm1 Hd.
Lemma num2_neq0 : num 2 <> 0 :> F.
Proof. intros E. apply H2. rewrite <- E. change (num 2 : F) with (num (1 + 1) : F). rewrite num_add. reflexivity. Qed.
Let H1 := n1_neq_n0 Hp.
Let HD := one_d_neq0 Hp d Hm1 Hd.

Lemma B_neq0 : B <> 0.
Proof. destruct HM as [_ E]. intros Z. apply (nz _ _ H2 H2). transitivity (- (B * (1 + d))); [rewrite E; ring|]. rewrite Z. ring. Qed.
Lemma A_eq : A = - B - (1 + 1).
Proof.
  destruct HM as [E1 E2]. apply (nmul_cancel_l Hp (1 + d)); auto.
  transitivity (A * (1 + d)); [ring|]. rewrite E1. transitivity (- (B * (1 + d)) - (1 + 1) * (1 + d)); [rewrite E2|]; ring.
Qed.
Lemma dB_eq : d * B = - B - (1 + 1) * (1 + 1).
Proof. destruct HM as [_ E2]. transitivity (B * (1 + d) - B); [ring|]. rewrite E2. ring. Qed.
Lemma A_neq0 : A <> 0.
Proof.
  destruct HM as [E1 _]. intros Z. rewrite Z in E1.
  assert (E : (1 + 1) * (1 - d) = 0) by (rewrite <- E1; ring). destruct (nmul_integral Hp _ _ E) as [X|X]; [now apply H2|].
  apply Hd. exists 1. symmetry in X. transitivity (1 - 0 : F); [ring|]. rewrite X. ring.
Qed.

(** No point of the Montgomery curve but (0, 0) has v = 0, and none has u = -1. *)
Lemma mont_u_m1 M : onm M -> mx M + 1 <> 0.
Proof.
  intros HMc E. apply Hd. exists (my M). apply (nmul_cancel_l Hp B); [apply B_neq0|].
  transitivity (mx M * mx M * mx M + A * (mx M * mx M) + mx M); [exact HMc|].
  replace (mx M) with (- (1) : F) by (transitivity ((mx M + 1) - 1); [rewrite E|]; ring).
  rewrite A_eq. transitivity (d * B); [rewrite dB_eq|]; ring.
Qed.
Lemma mont_v0 M : onm M -> (my M = 0 <-> mx M = 0).
Proof.
  intros HMc. unfold on_mont in HMc. set (u := mx M) in *. set (v := my M) in *. split; intros E.
  - assert (K : u * (u * u + A * u + 1) = 0).
    { transitivity (u * u * u + A * (u * u) + u); [ring|]. rewrite <- HMc, E. ring. }
    destruct (nmul_integral Hp _ _ K) as [X|X]; auto. exfalso.
    (* (2u + A)^2 = A^2 - 4 = B^2 (-d) / ... *)
    assert (S : ((1 + 1) * u + A) * ((1 + 1) * u + A) = - (d * (B * B))).
    { transitivity ((1 + 1) * (1 + 1) * (u * u + A * u + 1) + A * A - (1 + 1) * (1 + 1)); [ring|]. rewrite X.
      transitivity (- (d * B) * B); [|ring]. rewrite dB_eq, A_eq. ring. }
    pose proof Hm1 as [i Hi]. apply Hd. exists (i * ((1 + 1) * u + A) / B). pose proof B_neq0 as NB.
    transitivity (i * i * (((1 + 1) * u + A) * ((1 + 1) * u + A)) / (B * B)); [field; auto|]. rewrite S, Hi. field; auto.
  - assert (K : v * v = 0).
    { apply (nmul_cancel_l Hp B); [apply B_neq0|]. rewrite HMc, E. ring. }
    destruct (nmul_integral Hp _ _ K); auto.
Qed.

(** Points of the two curves correspond. *)
Lemma mrel_of P : onc P -> P <> e_zero -> exists M, mrel A B P M.
Proof.
  intros HP NP. assert (Ny : 1 - ey P <> 0).
  { intros E. apply NP. apply (onc_y1 Hp d Hm1 Hd); auto. transitivity (1 - (1 - ey P)); [ring|]. rewrite E. ring. }
  destruct (num_eq_dec (ex P) 0) as [E|E].
  - destruct (onc_x0 Hp d Hm1 Hd P HP E) as [|ET]; [contradiction|]. exists (mkM 0 0). rewrite ET.
    unfold mrel, on_mont; cbn [mx my ex ey T2]. repeat split; ring.
  - exists (mkM ((1 + ey P) / (1 - ey P)) ((1 + ey P) / (1 - ey P) / ex P)).
    unfold mrel, on_mont; cbn [mx my]. split; [|split; field; auto].
    pose proof (Edwards.head Hp d Hm1 Hd _ _ HP) as Hh. pose proof dB_eq as HdB. rewrite A_eq.
    set (x := ex P) in *. set (y := ey P) in *.
    apply (sub_eq0 Hp).
    transitivity ((1 + y) * (B * (1 + y) * (1 - y) - x ^ 2 * ((1 + y) ^ 2 + (- B - (1 + 1)) * (1 + y) * (1 - y) + (1 - y) ^ 2)) / ((1 - y) ^ 3 * x ^ 2)); [field; auto|].
    assert (K : B * (1 + y) * (1 - y) - x ^ 2 * ((1 + y) ^ 2 + (- B - (1 + 1)) * (1 + y) * (1 - y) + (1 - y) ^ 2) = 0).
    { assert (K2 : B * (d * x ^ 2 * y ^ 2) = B * (y ^ 2 - x ^ 2 - 1)) by now rewrite Hh.
      transitivity (- B * (y ^ 2 - x ^ 2 - 1) - (B + (1 + 1) * (1 + 1)) * x ^ 2 * y ^ 2); [ring|].
      transitivity (- (B * (y ^ 2 - x ^ 2 - 1)) + (- B - (1 + 1) * (1 + 1)) * x ^ 2 * y ^ 2); [ring|].
      rewrite <- K2, <- HdB. ring. }
    rewrite K. field; auto.
Qed.
Lemma mrel_inj P M N : onc P -> mrel A B P M -> mrel A B P N -> M = N.
Proof.
  intros HP [C1 [E1 F1]] [C2 [E2 F2]].
  assert (Ny : 1 - ey P <> 0).
  { intros E. apply H2. transitivity ((1 + ey P) + (1 - ey P)); [ring|]. rewrite <- E1, E. ring. }
  assert (EX : mx M = mx N) by (apply (nmul_cancel_l Hp (1 - ey P)); auto; transitivity (mx M * (1 - ey P)); [ring|]; rewrite E1, <- E2; ring).
  assert (EY : my M = my N).
  { destruct (num_eq_dec (ex P) 0) as [E|E].
    - assert (X : mx M = 0) by (rewrite <- F1, E; ring). pose proof X as Y. rewrite EX in Y.
      apply (mont_v0 M C1) in X. apply (mont_v0 N C2) in Y. congruence.
    - apply (nmul_cancel_l Hp (ex P)); auto. congruence. }
  destruct M, N; cbn in *; congruence.
Qed.
(** The point of the Edwards curve under a Montgomery point. *)
Definition unmont M : EPoint p := mkE (mx M / (if nis_zero (my M) then 1 else my M)) ((mx M - 1) / (mx M + 1)).
Lemma unmont_ok M : onm M -> onc (unmont M) /\ unmont M <> e_zero /\ mrel A B (unmont M) M.
Proof.
  intros C. pose proof (mont_u_m1 M C) as Nu. unfold unmont, mrel.
  assert (Z : (mx M - 1) / (mx M + 1) <> 1).
  { intros E. apply H2. assert (X : mx M - 1 = mx M + 1) by (transitivity ((mx M - 1) / (mx M + 1) * (mx M + 1)); [field; auto|rewrite E; ring]).
    transitivity ((mx M + 1) - (mx M - 1)); [ring|]. rewrite X. ring. }
  assert (Ey : mx M * (1 - (mx M - 1) / (mx M + 1)) = 1 + (mx M - 1) / (mx M + 1)) by (field; auto).
  split; [|split; [|split; [auto|split]]].
  - destruct (nis_zero (my M)) eqn:E.
    + apply nis_zero_eq in E. apply (mont_v0 M C) in E. rewrite E. unfold on_curve; cbn [ex ey].
      assert (1 + (0 : F) <> 0) by (intros X; apply H1; rewrite <- X; ring). field; auto.
    + apply nis_zero_neq in E. unfold on_curve; cbn [ex ey]. unfold on_mont in C.
      pose proof B_neq0 as NB. pose proof dB_eq as HdB. rewrite A_eq in C.
      set (u := mx M) in *. set (v := my M) in *.
      assert (Ed : d = (- B - (1 + 1) * (1 + 1)) / B) by (rewrite <- HdB; field; auto). rewrite Ed.
      apply (sub_eq0 Hp).
      transitivity ((1 + 1) * (1 + 1) * ((u * u * u + (- B - (1 + 1)) * (u * u) + u) - B * (v * v)) * u / (B * (v * v) * ((u + 1) * (u + 1)))); [field; auto|].
      rewrite <- C. field; auto.
  - intros E. apply Z. exact (f_equal ey E).
  - cbn [ey]. exact Ey.
  - cbn [ex]. destruct (nis_zero (my M)) eqn:E.
    + apply nis_zero_eq in E. pose proof (proj1 (mont_v0 M C) E) as X. rewrite X, E. field; auto.
    + apply nis_zero_neq in E. field; auto.
Qed.
Lemma unmont_mrel P M : onc P -> mrel A B P M -> unmont M = P.
Proof.
  intros HP [C [E1 F1]]. pose proof (mont_u_m1 M C) as Nu. apply e_ext; cbn [unmont ex ey].
  - destruct (nis_zero (my M)) eqn:E.
    + apply nis_zero_eq in E. rewrite (proj1 (mont_v0 M C) E). destruct (num_eq_dec (ex P) 0) as [X|X]; [rewrite X; field; auto|].
      exfalso. apply (proj1 (mont_v0 M C)) in E.
      assert (Y : ey P = - (1)) by (rewrite E in E1; transitivity ((1 + ey P) - 1); [ring|]; rewrite <- E1; ring).
      unfold on_curve in HP. rewrite Y in HP. apply X.
      assert (K : ex P * ex P * (1 + d) = 0).
      { transitivity (1 + d * (ex P * ex P) * (- (1) * - (1)) - (- (1) * - (1) - ex P * ex P)); [ring|]. rewrite HP. ring. }
      destruct (nmul_integral Hp _ _ K) as [Q|Q]; [|contradiction]. destruct (nmul_integral Hp _ _ Q); auto.
    + apply nis_zero_neq in E. rewrite <- F1. field; auto.
  - transitivity (ey P * (mx M + 1) / (mx M + 1)); [|field; auto]. f_equal.
    transitivity (mx M - mx M * (1 - ey P) + ey P); [rewrite E1|]; ring.
Qed.
Lemma mrel_onc P M : onc P -> mrel A B P M -> P <> e_zero.
Proof.
  intros HP [_ [E _]] ->. cbn [e_zero ey] in E. apply H2. rewrite <- E. ring.
Qed.

(** Native conversions. *)
Lemma e_into_montgomery_ok P : onc P ->
  (P = e_zero -> e_into_montgomery P = Ok None) /\
  (P <> e_zero -> exists M, e_into_montgomery P = Ok (Some M) /\ mrel A B P M).
Proof.
  intros HP. unfold e_into_montgomery. split.
  - intros ->. cbn [ex ey e_zero]. rewrite (proj2 (nis_zero_eq 0) eq_refl), neqb_refl. reflexivity.
  - intros NP. destruct (mrel_of P HP NP) as [M HM']. exists M. split; auto. destruct (nis_zero (ex P)) eqn:E.
    + apply nis_zero_eq in E. destruct (onc_x0 Hp d Hm1 Hd P HP E) as [|ET]; [contradiction|]. rewrite ET in *. cbn [ey T2].
      rewrite (proj2 (neqb_neq _ _) (m1_neq_1 Hp d Hm1 Hd)). destruct HM' as [C [E1 F1]]. cbn [ex ey T2] in *.
      assert (X : mx M = 0) by (rewrite <- F1; ring). pose proof (proj2 (mont_v0 M C) X) as Y. destruct M; cbn in *. congruence.
    + apply nis_zero_neq in E. destruct HM' as [C [E1 F1]].
      assert (Ny : 1 - ey P <> 0).
      { intros X. apply NP. apply (onc_y1 Hp d Hm1 Hd); auto. transitivity (1 - (1 - ey P)); [ring|]. rewrite X. ring. }
      rewrite (ndiv_ok _ _ Ny). cbn [rbind]. rewrite (ndiv_ok _ _ E). cbn [rbind].
      assert (X : mx M = (1 + ey P) / (1 - ey P)) by (rewrite <- E1; field; auto).
      assert (Y : my M = mx M / ex P) by (rewrite <- F1; field; auto).
      destruct M as [u v]; cbn in *. rewrite Y, X. reflexivity.
Qed.
Lemma m_into_affine_ok M : onm M -> m_into_affine M = Ok (unmont M).
Proof.
  intros C. unfold m_into_affine, unmont. destruct (nis_zero (mx M)) eqn:E.
  - apply nis_zero_eq in E. rewrite (proj2 (nis_zero_eq (my M))) by now apply mont_v0. rewrite E. f_equal. apply e_ext; cbn [ex ey].
    + field; auto.
    + assert (1 + (0 : F) <> 0) by (intros X; apply H1; rewrite <- X; ring). field; auto.
  - apply nis_zero_neq in E. assert (Ev : my M <> 0) by (intros X; apply E; now apply mont_v0).
    rewrite (ndiv_ok _ _ Ev). cbn [rbind]. rewrite (ndiv_ok _ _ (mont_u_m1 M C)). cbn [rbind].
    rewrite (proj2 (nis_zero_neq _) Ev). reflexivity.
Qed.

(** A line through (u1, v1) with slope [l] that meets the curve at u1 and u2
    (u1 twice when u1 = u2) meets it again at B l^2 - A - u1 - u2. *)
Lemma line_ok u1 v1 u2 l :
  B * (v1 * v1) = u1 * u1 * u1 + A * (u1 * u1) + u1 ->
  B * ((1 + 1) * v1 * l + l * l * (u2 - u1)) = u2 * u2 + u2 * u1 + u1 * u1 + A * (u2 + u1) + 1 ->
  forall u3 v3, u3 = B * (l * l) - A - u1 - u2 -> v3 = - (v1 + l * (u3 - u1)) -> onm (mkM u3 v3).
Proof.
  intros E1 E2 u3 v3 E3 E4. unfold on_mont; cbn [mx my]. apply (sub_eq0 Hp).
  transitivity ((B * (v1 * v1) - (u1 * u1 * u1 + A * (u1 * u1) + u1)) +
    (u3 - u1) * ((B * ((1 + 1) * v1 * l + l * l * (u2 - u1)) - (u2 * u2 + u2 * u1 + u1 * u1 + A * (u2 + u1) + 1))
                 - (u3 - u2) * (u3 + u2 + u1 + A - B * (l * l)))).
  - rewrite E4. ring.
  - rewrite E1, E2, E3. ring.
Qed.

(** Chord: the second point is not T2. *)
Lemma chord_ok P Q M N : onc P -> onc Q -> mrel A B P M -> mrel A B Q N -> mx N <> 0 -> mx M <> mx N ->
  mrel A B (P +e Q) (m_chord A B M N).
Proof.
  intros HP HQ RP RQ N2 NU. pose proof (unmont_mrel P M HP RP) as UP. pose proof (unmont_mrel Q N HQ RQ) as UQ.
  destruct RP as [C1 _], RQ as [C2 _]. pose proof (mont_u_m1 M C1) as W1. pose proof (mont_u_m1 N C2) as W2.
  destruct (complete Hp d Hm1 Hd P Q HP HQ) as [K1 K2].
  assert (V2 : my N <> 0) by (intros X; apply N2; now apply mont_v0).
  assert (NB := B_neq0). pose proof A_eq as EA. pose proof dB_eq as HdB.
  assert (Ed : d = (- B - (1 + 1) * (1 + 1)) / B) by (rewrite <- HdB; field; auto).
  assert (ND : mx N - mx M <> 0) by (apply (sub_neq Hp); auto).
  unfold unmont in UP, UQ. rewrite (proj2 (nis_zero_neq _) V2) in UQ.
  pose proof C1 as D1. pose proof C2 as D2. unfold on_mont in D1, D2.
  split; [|split].
  - eapply (line_ok (mx M) (my M) (mx N) ((my N - my M) / (mx N - mx M))); [exact D1| |reflexivity|].
    + apply (nmul_cancel_l Hp (mx N - mx M)); auto.
      transitivity (B * (my N * my N) - B * (my M * my M)); [field; auto|]. rewrite D1, D2. ring.
    + ring.
  - (* u3 (1 - y3) = 1 + y3 *)
    set (u3 := mx (m_chord A B M N)). unfold eadd; cbn [ey].
    set (t := d * ex P * ex Q * ey P * ey Q) in *. set (n := ey P * ey Q + ex P * ex Q).
    assert (G : u3 * ((1 - t) - n) = (1 - t) + n).
    2:{ transitivity (u3 * ((1 - t) - n) / (1 - t)); [field; auto|]. rewrite G. field; auto. }
    unfold u3, m_chord, n, t; cbn [mx]. clear u3 n t K1 K2. rewrite Ed, EA. rewrite EA in D1, D2. clear Ed EA HdB.
    destruct (nis_zero (my M)) eqn:V1.
    + apply nis_zero_eq in V1. pose proof (proj1 (mont_v0 M C1) V1) as U1. rewrite <- UP, <- UQ; cbn [ex ey]. rewrite U1, V1 in *.
      set (u2 := mx N) in *. set (v2 := my N) in *.
      assert (1 + (0 : F) <> 0) by (intros X; apply H1; rewrite <- X; ring).
      apply (nmul_cancel_l Hp (u2 * u2 * (u2 + 1))); [auto|].
      assert (X : B * (v2 * v2) / (u2 * u2) = (u2 * u2 + (- B - (1 + 1)) * u2 + 1) / u2).
      { rewrite D2. field; auto. }
      transitivity ((B * (v2 * v2) / (u2 * u2) - (- B - (1 + 1)) - u2) * ((u2 * u2 * ((u2 + 1) + (u2 - 1))))); [field; auto|].
      rewrite X. field; auto.
    + apply nis_zero_neq in V1. rewrite <- UP, <- UQ; cbn [ex ey].
      set (u1 := mx M) in *. set (v1 := my M) in *. set (u2 := mx N) in *. set (v2 := my N) in *.
      assert (H3 : B * v1 ^ 2 = u1 ^ 3 - (B + num 2) * u1 ^ 2 + u1) by (transitivity (B * (v1 * v1)); [ring|rewrite D1; ring]).
      assert (H4 : B * v2 ^ 2 = u2 ^ 3 - (B + num 2) * u2 ^ 2 + u2) by (transitivity (B * (v2 * v2)); [ring|rewrite D2; ring]).
      set (K' := B * v1 * v2 * (u1 + 1) * (u2 + 1) - (- B - num 4) * u1 * u2 * (u1 - 1) * (u2 - 1)).
      set (n' := B * v1 * v2 * (u1 - 1) * (u2 - 1) + B * u1 * u2 * (u1 + 1) * (u2 + 1)).
      assert (P0 : (B * (v2 - v1) ^ 2 - (- B - num 2 + u1 + u2) * (u2 - u1) ^ 2) * (K' - n') = (K' + n') * (u2 - u1) ^ 2).
      { unfold K', n'. ring [H3 H4]. }
      apply (nmul_cancel_l Hp (B * v1 * v2 * (u1 + 1) * (u2 + 1) * (u2 - u1) ^ 2)).
      { replace ((u2 - u1) ^ 2) with ((u2 - u1) * (u2 - u1)) by ring. auto 20. }
      transitivity ((B * (v2 - v1) ^ 2 - (- B - num 2 + u1 + u2) * (u2 - u1) ^ 2) * (K' - n')).
      { unfold K', n'. field; repeat split; auto. }
      rewrite P0. unfold K', n'. field; repeat split; auto.
  - (* x3 v3 = u3 *)
    set (u3 := mx (m_chord A B M N)). set (v3 := my (m_chord A B M N)). unfold eadd; cbn [ex].
    set (t := d * ex P * ex Q * ey P * ey Q) in *. set (n := ex P * ey Q + ey P * ex Q).
    assert (G : n * v3 = u3 * (1 + t)).
    2:{ transitivity (n * v3 / (1 + t)); [field; auto|]. rewrite G. field; auto. }
    unfold u3, v3, m_chord, n, t; cbn [mx my]. clear u3 v3 n t K1 K2. rewrite Ed, EA. rewrite EA in D1, D2. clear Ed EA HdB.
    destruct (nis_zero (my M)) eqn:V1.
    + apply nis_zero_eq in V1. pose proof (proj1 (mont_v0 M C1) V1) as U1. rewrite <- UP, <- UQ; cbn [ex ey]. rewrite U1, V1 in *.
      set (u2 := mx N) in *. set (v2 := my N) in *.
      assert (1 + (0 : F) <> 0) by (intros X; apply H1; rewrite <- X; ring).
      assert (X : B * (v2 * v2) / (u2 * u2) = (u2 * u2 + (- B - (1 + 1)) * u2 + 1) / u2).
      { rewrite D2. field; auto. }
      transitivity (- ((u2 / v2) * ((v2 / u2) * (u2 + (- B - (1 + 1)) - B * (v2 * v2) / (u2 * u2))))); [field; auto|].
      transitivity (B * (v2 * v2) / (u2 * u2) - (- B - (1 + 1)) - u2); [|field; auto]. rewrite X. field; auto.
    + apply nis_zero_neq in V1. rewrite <- UP, <- UQ; cbn [ex ey].
      set (u1 := mx M) in *. set (v1 := my M) in *. set (u2 := mx N) in *. set (v2 := my N) in *.
      assert (H3 : B * v1 ^ 2 = u1 ^ 3 - (B + num 2) * u1 ^ 2 + u1) by (transitivity (B * (v1 * v1)); [ring|rewrite D1; ring]).
      assert (H4 : B * v2 ^ 2 = u2 ^ 3 - (B + num 2) * u2 ^ 2 + u2) by (transitivity (B * (v2 * v2)); [ring|rewrite D2; ring]).
      set (L' := B * v1 * v2 * (u1 + 1) * (u2 + 1) + (- B - num 4) * u1 * u2 * (u1 - 1) * (u2 - 1)).
      set (m' := B * (u1 * v2 * (u2 - 1) * (u1 + 1) + u2 * v1 * (u1 - 1) * (u2 + 1))).
      set (U := B * (v2 - v1) ^ 2 - (- B - num 2 + u1 + u2) * (u2 - u1) ^ 2).
      assert (P0 : m' * ((v2 - v1) * (u1 * (u2 - u1) ^ 2 - U) - v1 * (u2 - u1) ^ 3) = U * L' * (u2 - u1)).
      { unfold m', L', U. ring [H3 H4]. }
      apply (nmul_cancel_l Hp (B * v1 * v2 * (u1 + 1) * (u2 + 1) * (u2 - u1) ^ 3)).
      { replace ((u2 - u1) ^ 3) with ((u2 - u1) * (u2 - u1) * (u2 - u1)) by ring. auto 20. }
      transitivity (m' * ((v2 - v1) * (u1 * (u2 - u1) ^ 2 - U) - v1 * (u2 - u1) ^ 3)).
      { unfold m', U. field; repeat split; auto. }
      rewrite P0. unfold L', U. field; repeat split; auto.
Qed.

(** Tangent, for a point that is not T2. *)
Lemma tangent_ok P M : onc P -> mrel A B P M -> mx M <> 0 -> mrel A B (P +e P) (m_tangent A B M).
Proof.
  intros HP RP N1. pose proof (unmont_mrel P M HP RP) as UP.
  destruct RP as [C1 _]. pose proof (mont_u_m1 M C1) as W1.
  destruct (complete Hp d Hm1 Hd P P HP HP) as [K1 K2].
  assert (V1 : my M <> 0) by (intros X; apply N1; now apply mont_v0).
  assert (NB := B_neq0). pose proof A_eq as EA. pose proof dB_eq as HdB. pose proof num2_neq0 as H2'.
  assert (Ed : d = (- B - (1 + 1) * (1 + 1)) / B) by (rewrite <- HdB; field; auto).
  unfold unmont in UP. rewrite (proj2 (nis_zero_neq _) V1) in UP.
  pose proof C1 as D1. unfold on_mont in D1.
  split; [|split].
  - apply (line_ok (mx M) (my M) (mx M) (((1 + 1 + 1) * (mx M * mx M) + (1 + 1) * A * mx M + 1) / ((1 + 1) * B * my M))); [exact D1| | |].
    + field; repeat split; auto.
    + ring.
    + ring.
  - set (u3 := mx (m_tangent A B M)). unfold eadd; cbn [ey].
    set (t := d * ex P * ex P * ey P * ey P) in *. set (n := ey P * ey P + ex P * ex P).
    assert (G : u3 * ((1 - t) - n) = (1 - t) + n).
    2:{ transitivity (u3 * ((1 - t) - n) / (1 - t)); [field; auto|]. rewrite G. field; auto. }
    unfold u3, m_tangent, n, t; cbn [mx]. clear u3 n t K1 K2. rewrite Ed, EA. rewrite EA in D1. clear Ed EA HdB.
    rewrite <- UP; cbn [ex ey]. set (u1 := mx M) in *. set (v1 := my M) in *.
    assert (H3 : B * v1 ^ 2 = u1 ^ 3 - (B + num 2) * u1 ^ 2 + u1) by (transitivity (B * (v1 * v1)); [ring|rewrite D1; ring]).
    set (K' := B * v1 ^ 2 * (u1 + 1) ^ 2 - (- B - num 4) * u1 ^ 2 * (u1 - 1) ^ 2).
    set (n' := B * v1 ^ 2 * (u1 - 1) ^ 2 + B * u1 ^ 2 * (u1 + 1) ^ 2).
    set (U := (num 3 * u1 ^ 2 - num 2 * (B + num 2) * u1 + 1) ^ 2 - num 4 * B * v1 ^ 2 * (- B - num 2 + num 2 * u1)).
    assert (P0 : U * (K' - n') = (K' + n') * (num 4 * B * v1 ^ 2)).
    { unfold K', n', U. ring [H3]. }
    apply (nmul_cancel_l Hp (B * v1 ^ 2 * (u1 + 1) ^ 2 * (num 4 * B * v1 ^ 2))).
    { replace (B * v1 ^ 2 * (u1 + 1) ^ 2 * (num 4 * B * v1 ^ 2)) with (B * (v1 * v1) * ((u1 + 1) * (u1 + 1)) * ((1 + 1) * (1 + 1) * B * (v1 * v1))) by ring. auto 20. }
    transitivity (U * (K' - n')). { unfold K', n', U. field; repeat split; auto. }
    rewrite P0. unfold K', n'. field; repeat split; auto.
  - set (u3 := mx (m_tangent A B M)). set (v3 := my (m_tangent A B M)). unfold eadd; cbn [ex].
    set (t := d * ex P * ex P * ey P * ey P) in *. set (n := ex P * ey P + ey P * ex P).
    assert (G : n * v3 = u3 * (1 + t)).
    2:{ transitivity (n * v3 / (1 + t)); [field; auto|]. rewrite G. field; auto. }
    unfold u3, v3, m_tangent, n, t; cbn [mx my]. clear u3 v3 n t K1 K2. rewrite Ed, EA. rewrite EA in D1. clear Ed EA HdB.
    rewrite <- UP; cbn [ex ey]. set (u1 := mx M) in *. set (v1 := my M) in *.
    assert (H3 : B * v1 ^ 2 = u1 ^ 3 - (B + num 2) * u1 ^ 2 + u1) by (transitivity (B * (v1 * v1)); [ring|rewrite D1; ring]).
    set (L' := B * v1 ^ 2 * (u1 + 1) ^ 2 + (- B - num 4) * u1 ^ 2 * (u1 - 1) ^ 2).
    set (m' := num 2 * B * u1 * v1 * (u1 - 1) * (u1 + 1)).
    set (L := num 3 * u1 ^ 2 - num 2 * (B + num 2) * u1 + 1).
    set (U := L ^ 2 - num 4 * B * v1 ^ 2 * (- B - num 2 + num 2 * u1)).
    assert (P0 : m' * (L * (num 4 * B * v1 ^ 2 * u1 - U) - num 8 * B ^ 2 * v1 ^ 4) = U * L' * num 2 * B * v1).
    { unfold m', L', U, L. ring [H3]. }
    apply (nmul_cancel_l Hp (B * v1 ^ 2 * (u1 + 1) ^ 2 * (num 8 * B ^ 2 * v1 ^ 3))).
    { replace (B * v1 ^ 2 * (u1 + 1) ^ 2 * (num 8 * B ^ 2 * v1 ^ 3)) with (B * (v1 * v1) * ((u1 + 1) * (u1 + 1)) * ((1 + 1) * (1 + 1) * (1 + 1) * (B * B) * (v1 * v1 * v1))) by ring. auto 20. }
    transitivity (m' * (L * (num 4 * B * v1 ^ 2 * u1 - U) - num 8 * B ^ 2 * v1 ^ 4)). { unfold m', U, L. field; repeat split; auto. }
    rewrite P0. unfold L', U, L. field; repeat split; auto.
Qed.
Lemma mrel_u_neq P Q M N : onc P -> onc Q -> mrel A B P M -> mrel A B Q N -> P <> Q -> P <> eneg Q -> mx M <> mx N.
Proof.
  intros HP HQ RP RQ N1 N2 E.
  pose proof (unmont_mrel P M HP RP) as UP. pose proof (unmont_mrel Q N HQ RQ) as UQ.
  assert (Ey : ey P = ey Q) by (rewrite <- UP, <- UQ; cbn [unmont ey]; now rewrite E).
  assert (Ex : ex P * ex P = ex Q * ex Q).
  { pose proof HP as CP. pose proof HQ as CQ.
    assert (X : forall R : EPoint p, onc R -> onc (mkE (ex R) (ey R))) by (intros R; now destruct R).
    apply X in CP. apply X in CQ. apply (onc_iff_y Hp d Hm1 Hd) in CP, CQ. now rewrite CP, CQ, Ey. }
  destruct (square_roots Hp _ _ Ex) as [X|X]; [apply N1|apply N2]; apply e_ext; auto.
Qed.

(** ** from_scalar *)
Definition mg (x : F) : F := (x * x * (x + A) + x) / B.
Lemma mont_g_ok x : mont_g x A B = Ok (mg x).
Proof. unfold mont_g. rewrite (ndiv_ok _ _ B_neq0). reflexivity. Qed.
Lemma mg_onm x y : y * y = mg x -> onm (mkM x y).
Proof. intros E. unfold on_mont; cbn [mx my]. rewrite E. unfold mg. pose proof B_neq0. field; auto. Qed.
Lemma filter_even_sq (x : F) : filter_even x * filter_even x = x * x.
Proof. unfold filter_even. destruct (Z.even (nval x)); ring. Qed.
Lemma filter_even_even (x : F) : Z.even (nval (filter_even x)) = true.
Proof.
  unfold filter_even. destruct (Z.even (nval x)) eqn:E; auto.
  destruct (num_eq_dec x 0) as [X|X]; [rewrite X, nval_zero in E; discriminate|].
  rewrite <- Z.negb_odd, (parity_neg Hp d Hm1 Hd) by auto. rewrite <- Z.negb_odd in E. now destruct (Z.odd (nval x)).
Qed.
Lemma even_root_unique (x y : F) : x * x = y * y -> Z.even (nval x) = true -> Z.even (nval y) = true -> x = y.
Proof.
  intros E Ex Ey. destruct (square_roots Hp _ _ E) as [|X]; auto. destruct (num_eq_dec y 0) as [Y|Y]; [rewrite X, Y; ring|].
  exfalso. rewrite X, <- Z.negb_odd, (parity_neg Hp d Hm1 Hd), Bool.negb_involutive in Ex by auto.
  rewrite <- Z.negb_odd, Ex in Ey. discriminate.
Qed.

(** The two candidate abscissas. *)
Section U.
Variable u : F.
Hypothesis Hu : ~ is_square u.
Definition tau (t : F) : F := (t + 1) * (t + 1) * u.
Definition fs_x2 (t : F) : F := - (1) / A * (1 + finv (tau t)).
Definition fs_x3 (t : F) : F := fs_x2 t * tau t.
Lemma tau_neq0 t : t + 1 <> 0 -> tau t <> 0.
Proof. intros H. unfold tau. assert (u <> 0) by (intros Z; apply Hu; exists 0; rewrite Z; ring). auto. Qed.
Lemma mg_x3 t : t + 1 <> 0 -> mg (fs_x3 t) = tau t * tau t * tau t * mg (fs_x2 t).
Proof.
  intros H. pose proof (tau_neq0 t H) as NT. pose proof A_neq0. pose proof B_neq0. unfold fs_x3, mg, fs_x2. set (w := tau t) in *.
  field; repeat split; auto.
Qed.
Lemma tau_nonsquare t : t + 1 <> 0 -> ~ is_square (tau t).
Proof.
  intros H. unfold tau. apply (square_mul_nonsquare Hp); auto. apply is_square_sq.
Qed.
Lemma mg_x3_square t : t + 1 <> 0 -> ~ is_square (mg (fs_x2 t)) -> is_square (mg (fs_x3 t)).
Proof.
  intros H N. rewrite mg_x3 by auto. replace (tau t * tau t * tau t * mg (fs_x2 t)) with ((tau t * tau t) * (tau t * mg (fs_x2 t))) by ring.
  apply (is_square_mul Hp); [apply is_square_sq|]. apply (nonsquare_mul Hp); auto. now apply tau_nonsquare.
Qed.
(** The Montgomery point chosen: the even root at x2 if there is one, else at x3. *)
Definition fs_point (t : F) (M : MPoint p) : Prop :=
  Z.even (nval (my M)) = true /\
  ((mx M = fs_x2 t /\ my M * my M = mg (fs_x2 t)) \/
   (~ is_square (mg (fs_x2 t)) /\ mx M = fs_x3 t /\ my M * my M = mg (fs_x3 t))).
Lemma fs_point_unique t M N : fs_point t M -> fs_point t N -> M = N.
Proof.
  intros [E1 K1] [E2 K2].
  assert (X : mx M = mx N /\ my M * my M = my N * my N).
  { destruct K1 as [[A1 A2]|[A0 [A1 A2]]], K2 as [[B1 B2]|[B0 [B1 B2]]]; try (split; congruence); exfalso.
    - apply B0. eexists; eauto.
    - apply A0. eexists; eauto. }
  destruct X as [X Y]. apply even_root_unique in Y; auto. destruct M, N; cbn in *; congruence.
Qed.
Lemma fs_point_onm t M : fs_point t M -> onm M.
Proof. intros [_ [[E1 E2]|[_ [E1 E2]]]]; destruct M; cbn in *; subst; now apply mg_onm. Qed.
Section Sqrt.
Variable sqrt : F -> option F.
Hypothesis Hs : sqrt_ok sqrt.
Lemma from_scalar_raw_ok t : t + 1 <> 0 -> exists M, fs_point t M /\
  from_scalar_raw sqrt t A B u = Ok (emul d 8 (unmont M)).
Proof.
  intros Ht. assert (X : exists M, fs_point t M /\
    (match sqrt (mg (fs_x2 t)) with
          | Some y2 => Ok (mkM (fs_x2 t) (filter_even y2))
          | None =>
              g3 <-? mont_g (fs_x3 t) A B ;
              y3 <-? unwrap (sqrt g3) ;
              Ok (mkM (fs_x3 t) (filter_even y3))
          end) = Ok M).
  { pose proof (Hs (mg (fs_x2 t))) as K. destruct (sqrt (mg (fs_x2 t))) as [y2|].
    - eexists; split; [|reflexivity]. split; [apply filter_even_even|]. left. cbn [mx my]. split; auto. now rewrite filter_even_sq.
    - rewrite mont_g_ok. cbn [rbind]. pose proof (Hs (mg (fs_x3 t))) as K3. destruct (sqrt (mg (fs_x3 t))) as [y3|].
      + cbn [unwrap rbind]. eexists; split; [|reflexivity]. split; [apply filter_even_even|]. right. cbn [mx my].
        split; auto. split; auto. now rewrite filter_even_sq.
      + exfalso. apply K3. now apply mg_x3_square. }
  destruct X as [M [H X]]. exists M. split; auto. unfold from_scalar_raw. cbv zeta.
  change (nsquare (t + 1) * u) with (tau t). rewrite (ndiv_ok _ _ A_neq0). cbn [rbind]. rewrite (ninv_ok _ (tau_neq0 t Ht)). cbn [rbind].
  change (- (1) / A * (1 + finv (tau t))) with (fs_x2 t). rewrite mont_g_ok. cbn [rbind].
  change (fs_x2 t * tau t) with (fs_x3 t). rewrite X. cbn [rbind]. unfold m_into_extended.
  pose proof (fs_point_onm t M H) as C. rewrite (m_into_affine_ok M C). cbn [rbind].
  destruct (unmont_ok M C) as [CE _]. destruct (e_into_extended_ok Hp d Hm1 Hd _ CE) as [HX EX].
  destruct (x_cofactor_ok Hp d Hm1 Hd _ HX) as [[Hz _] E8]. rewrite (x_into_affine_ok Hp d Hm1 Hd), E8, EX by auto. reflexivity.
Qed.
Lemma from_scalar_raw_m1 : from_scalar_raw sqrt (- (1)) A B u = Panic.
Proof.
  unfold from_scalar_raw. cbv zeta. rewrite (ndiv_ok _ _ A_neq0). cbn [rbind]. unfold nsquare.
  replace ((- (1) + 1) * (- (1) + 1) * u) with (0 : F) by ring. unfold ninv. rewrite (proj2 (nis_zero_eq 0) eq_refl). reflexivity.
Qed.
End Sqrt.
End U.
End Mont.
