(** Checkable multiplication of a point over Fq2, for q = 3 mod 4. *)

From Coq Require Export Znumtheory.
From Verif Require Export PointData FieldTheory.
Open Scope Z_scope.

(** One step: the slope, the resulting point, and the quotients by q. *)
Inductive wstep := W (l0 l1 x0 x1 y0 y1 k1 k2 k3 k4 k5 k6 : Z).
Definition zpt : Type := Z * Z * (Z * Z).
Definition wd_check (q : Z) (s : wstep) (P : zpt) : option zpt :=
  let '(x0, x1, (y0, y1)) := P in
  let '(W l0 l1 X0 X1 Y0 Y1 k1 k2 k3 k4 k5 k6) := s in
  let m0 := l0 * y0 in let m1 := l1 * y1 in
  let d0 := x0 - X0 in let d1 := x1 - X1 in
  let n0 := l0 * d0 in let n1 := l1 * d1 in
  if (0 <? y0) && (y0 <? q) &&
     (2 * (m0 - m1) - 3 * ((x0 - x1) * (x0 + x1)) =? k1 * q) &&
     (2 * ((l0 + l1) * (y0 + y1) - m0 - m1) - 6 * (x0 * x1) =? k2 * q) &&
     ((l0 - l1) * (l0 + l1) - 2 * x0 - X0 =? k3 * q) &&
     (2 * (l0 * l1) - 2 * x1 - X1 =? k4 * q) &&
     (n0 - n1 - y0 - Y0 =? k5 * q) &&
     ((l0 + l1) * (d0 + d1) - n0 - n1 - y1 - Y1 =? k6 * q)
  then Some (X0, X1, (Y0, Y1)) else None.
Definition wa_check (q : Z) (s : wstep) (P Q : zpt) : option zpt :=
  let '(x0, x1, (y0, y1)) := P in
  let '(a0, a1, (b0, b1)) := Q in
  let '(W l0 l1 X0 X1 Y0 Y1 k1 k2 k3 k4 k5 k6) := s in
  let e0 := a0 - x0 in let e1 := a1 - x1 in
  let m0 := l0 * e0 in let m1 := l1 * e1 in
  let d0 := x0 - X0 in let d1 := x1 - X1 in
  let n0 := l0 * d0 in let n1 := l1 * d1 in
  if (0 <? x0) && (x0 <? q) && (0 <? a0) && (a0 <? q) && negb (x0 =? a0) &&
     (m0 - m1 - b0 + y0 =? k1 * q) &&
     ((l0 + l1) * (e0 + e1) - m0 - m1 - b1 + y1 =? k2 * q) &&
     ((l0 - l1) * (l0 + l1) - x0 - a0 - X0 =? k3 * q) &&
     (2 * (l0 * l1) - x1 - a1 - X1 =? k4 * q) &&
     (n0 - n1 - y0 - Y0 =? k5 * q) &&
     ((l0 + l1) * (d0 + d1) - n0 - n1 - y1 - Y1 =? k6 * q)
  then Some (X0, X1, (Y0, Y1)) else None.
Fixpoint w_run (q : Z) (Q : zpt) (k : positive) (ss : list wstep) : option (zpt * list wstep) :=
  match k with
  | xH => Some (Q, ss)
  | xO k => match w_run q Q k ss with
            | Some (P, s :: ss) => match wd_check q s P with Some P => Some (P, ss) | None => None end
            | _ => None
            end
  | xI k => match w_run q Q k ss with
            | Some (P, s :: s' :: ss) =>
                match wd_check q s P with
                | Some P => match wa_check q s' P Q with Some P => Some (P, ss) | None => None end
                | None => None
                end
            | _ => None
            end
  end.

Section Cert.
Context {q : positive} (Hq : prime (Zpos q)) (Hq4 : Zpos q mod 4 = 3).
Notation F := (Num q).
Ltac num_hom H := repeat rewrite ?num_add, ?num_sub, ?num_mul, ?num_opp in H.
Ltac num_homg := repeat rewrite ?num_add, ?num_sub, ?num_mul, ?num_opp.
Open Scope num_scope.
Add Field g2_field : (num_field Hq) (morphism (@num_morph q), constants [num_cst], power_tac (@num_power q) [num_pow_cst]).
Set Default Proof Using "Type*".

Lemma odd_q : Zodd (Zpos q).
Proof. apply Zodd_bool_iff. rewrite Zodd_mod. apply Zeq_is_eq_bool. pose proof (Z.div_mod (Zpos q) 4 ltac:(lia)) as H. rewrite Hq4 in H. rewrite H. replace (4 * (Zpos q / 4) + 3)%Z with (1 + (2 * (Zpos q / 4) + 1) * 2)%Z by lia. apply Z_mod_plus_full. Qed.
Lemma one_neq_m1 : (1 : F) <> - (1).
Proof.
  intros H. change (1 : F) with (num 1 : F) in H. rewrite <- num_opp in H. apply num_eq_mod in H.
  pose proof (prime_ge_2 _ Hq). assert (Zpos q <> 2%Z) by (intros X; rewrite X in Hq4; discriminate).
  rewrite <- (Z_mod_plus_full (- (1)) 1 (Zpos q)), !Z.mod_small in H; lia.
Qed.
Lemma m1_nonsquare : ~ is_square (- (1) : F).
Proof.
  apply (euler_nonsquare Hq); [apply odd_q| |].
  - assert (0 <= Zpos q / 4)%Z by (apply Z.div_pos; lia).
    assert (O : Z.to_N ((Zpos q - 1) / 2) = (2 * Z.to_N (Zpos q / 4) + 1)%N).
    { pose proof (Z.div_mod (Zpos q) 4 ltac:(lia)) as H0. rewrite Hq4 in H0.
      replace (Zpos q - 1)%Z with ((2 * (Zpos q / 4) + 1) * 2)%Z by lia. rewrite Z.div_mul by lia. lia. }
    rewrite O, npow_add, npow_mul, npow_1. replace ((- (1)) ^ 2) with (1 : F) by ring. rewrite npow_one.
    intros E. apply one_neq_m1. symmetry. etransitivity; [|exact E]. ring.
  - intros E. apply one_neq_m1. rewrite E. transitivity (- - (1) : F); [ring|]. rewrite E. ring.
Qed.
Lemma sum_squares (a b : F) : b <> 0 -> a * a + b * b <> 0.
Proof.
  intros Hb H. apply m1_nonsquare. exists (a / b). replace (a / b * (a / b)) with ((a * a + b * b) / (b * b) - 1) by (field; auto).
  rewrite H. field. auto.
Qed.
Lemma q2norm (d : Fq2 q) : d <> q2zero -> nsquare (c0 d) + nsquare (c1 d) <> 0.
Proof.
  intros H. unfold nsquare. destruct (neqb (c1 d) 0) eqn:E.
  - apply neqb_eq in E. destruct d as [d0 d1]; cbn in *. subst. intros X. apply H. unfold q2zero. f_equal.
    assert (Y : d0 * d0 = 0) by (rewrite <- X; ring). destruct (nmul_integral Hq _ _ Y); auto.
  - apply sum_squares. intros X. rewrite X, neqb_refl in E. discriminate.
Qed.
Lemma q2_eq (a b : Fq2 q) : c0 a = c0 b -> c1 a = c1 b -> a = b.
Proof. destruct a, b; cbn. now intros -> ->. Qed.
Lemma q2div_eq (l d n : Fq2 q) : d <> q2zero -> q2mul l d = n -> q2div n d = l.
Proof.
  intros Hd <-. pose proof (q2norm d Hd) as N. destruct l as [l0 l1], d as [d0 d1]. unfold nsquare in *. cbn [c0 c1] in *.
  unfold q2div, q2mul, nsquare. cbn [c0 c1]. apply q2_eq; cbn [c0 c1].
  - field. auto.
  - field. auto.
Qed.

Definition q2 (z : Z * Z) : Fq2 q := mkFq2 (num (fst z)) (num (snd z)).
Definition pt (P : zpt) : option (Fq2 q * Fq2 q) := Some (q2 (fst P), q2 (snd P)).
Lemma num_nz z : (0 < z < Zpos q)%Z -> (num z : F) <> 0.
Proof. intros H E. apply num_eq_mod in E. rewrite Z.mod_small, Z.mod_0_l in E; lia. Qed.
Lemma eq_by (a b k : Z) : (a - b = k * Zpos q)%Z -> (num a : F) = num b.
Proof. intros H. apply num_eq_mod. replace a with (b + k * Zpos q)%Z by lia. apply Z_mod_plus_full. Qed.

Lemma wd_ok s P P' : wd_check (Zpos q) s P = Some P' -> wdouble (fq2 q) (pt P) = pt P'.
Proof.
  destruct P as [[x0 x1] [y0 y1]], s as [l0 l1 X0 X1 Y0 Y1 k1 k2 k3 k4 k5 k6]. cbn [wd_check].
  match goal with |- (if ?b then _ else _) = _ -> _ => destruct b eqn:E end; [|discriminate].
  intros [= <-]. rewrite !andb_true_iff, !Z.eqb_eq, !Z.ltb_lt in E.
  destruct E as [[[[[[[E1 E2] E3] E4] E5] E6] E7] E8]. unfold pt, q2. cbn [fst snd wdouble].
  assert (NZ : (num y0 : F) <> 0) by (apply num_nz; lia).
  replace (keqb (fq2 q) {| c0 := num y0; c1 := num y1 |} (k0 (fq2 q))) with false.
  2: { symmetry. apply not_true_is_false. cbn. unfold q2eqb. cbn [c0 c1]. rewrite andb_true_iff, neqb_eq. now intros [X _]. }
  cbn [fq2 kmul kadd ksub kdiv].
  match goal with |- context [q2div ?n ?d] => assert (EL : q2div n d = mkFq2 (num l0) (num l1)) end.
  { apply q2div_eq.
    - intros X. apply (f_equal c0) in X. cbn in X. apply one_neq_m1. assert (T : (1 : F) + 1 = 0).
      { assert (Y : ((1 : F) + 1) * num y0 = 0) by (rewrite <- X; ring). destruct (nmul_integral Hq _ _ Y); tauto. }
      replace (- (1) : F) with (1 - (1 + 1) : F) by ring. rewrite T. ring.
    - unfold q2mul, q2add. cbn [c0 c1]. apply q2_eq; cbn [c0 c1].
      + apply (eq_by (2 * (l0 * y0 - l1 * y1)) (3 * ((x0 - x1) * (x0 + x1)))) in E3. num_hom E3. transitivity (num 2 * (num l0 * num y0 - num l1 * num y1) : F); [ring|]. rewrite E3. ring.
      + apply (eq_by (2 * ((l0 + l1) * (y0 + y1) - l0 * y0 - l1 * y1)) (6 * (x0 * x1))) in E4. num_hom E4. transitivity (num 2 * ((num l0 + num l1) * (num y0 + num y1) - num l0 * num y0 - num l1 * num y1) : F); [ring|]. rewrite E4. ring. }
  rewrite EL. unfold q2mul, q2sub. cbn [c0 c1].
  assert (A0 : num X0 = (num l0 * num l0 - num l1 * num l1 - num x0 - num x0 : F)).
  { apply (eq_by ((l0 - l1) * (l0 + l1) - 2 * x0) X0) in E5. rewrite <- E5. num_homg. ring. }
  assert (A1 : num X1 = (num l0 * num l1 + num l1 * num l0 - num x1 - num x1 : F)).
  { apply (eq_by (2 * (l0 * l1) - 2 * x1) X1) in E6. rewrite <- E6. num_homg. ring. }
  rewrite <- A0, <- A1. do 3 f_equal.
  - apply (eq_by (l0 * (x0 - X0) - l1 * (x1 - X1) - y0) Y0) in E7. rewrite <- E7. num_homg. ring.
  - apply (eq_by ((l0 + l1) * (x0 - X0 + (x1 - X1)) - l0 * (x0 - X0) - l1 * (x1 - X1) - y1) Y1) in E8. rewrite <- E8. num_homg. ring.
Qed.

Lemma wa_ok s P Q P' : wa_check (Zpos q) s P Q = Some P' -> wadd (fq2 q) (pt P) (pt Q) = pt P'.
Proof.
  destruct P as [[x0 x1] [y0 y1]], Q as [[a0 a1] [b0 b1]], s as [l0 l1 X0 X1 Y0 Y1 k1 k2 k3 k4 k5 k6]. cbn [wa_check].
  match goal with |- (if ?b then _ else _) = _ -> _ => destruct b eqn:E end; [|discriminate].
  intros [= <-]. rewrite !andb_true_iff, !Z.eqb_eq, !Z.ltb_lt, negb_true_iff, Z.eqb_neq in E.
  destruct E as [[[[[[[[[[E1 E2] E1'] E2'] EN] E3] E4] E5] E6] E7] E8]. unfold pt, q2. cbn [fst snd wadd].
  assert (NZ : (num a0 - num x0 : F) <> 0).
  { intros X. assert (Y : (num a0 : F) = num x0) by (replace (num a0 : F) with (num a0 - num x0 + num x0 : F) by ring; rewrite X; ring).
    apply num_eq_mod in Y. rewrite !Z.mod_small in Y by lia. lia. }
  replace (keqb (fq2 q) {| c0 := num x0; c1 := num x1 |} {| c0 := num a0; c1 := num a1 |}) with false.
  2: { symmetry. apply not_true_is_false. cbn. unfold q2eqb. cbn [c0 c1]. rewrite andb_true_iff, neqb_eq. intros [X _]. apply NZ. rewrite X. ring. }
  cbn [fq2 kmul kadd ksub kdiv].
  match goal with |- context [q2div ?n ?d] => assert (EL : q2div n d = mkFq2 (num l0) (num l1)) end.
  { apply q2div_eq.
    - intros X. apply (f_equal c0) in X. cbn in X. contradiction.
    - unfold q2mul, q2sub. cbn [c0 c1]. apply q2_eq; cbn [c0 c1].
      + rewrite <- (Z.sub_0_r (_ + y0)) in E3. apply (eq_by (l0 * (a0 - x0) - l1 * (a1 - x1) - b0 + y0) 0) in E3. num_hom E3.
        transitivity (num l0 * (num a0 - num x0) - num l1 * (num a1 - num x1) - num b0 + num y0 + (num b0 - num y0) : F); [ring|]. rewrite E3. ring.
      + rewrite <- (Z.sub_0_r (_ + y1)) in E4. apply (eq_by ((l0 + l1) * (a0 - x0 + (a1 - x1)) - l0 * (a0 - x0) - l1 * (a1 - x1) - b1 + y1) 0) in E4. num_hom E4.
        transitivity ((num l0 + num l1) * (num a0 - num x0 + (num a1 - num x1)) - num l0 * (num a0 - num x0) - num l1 * (num a1 - num x1) - num b1 + num y1 + (num b1 - num y1) : F); [ring|].
        rewrite E4. ring. }
  rewrite EL. unfold q2mul, q2sub. cbn [c0 c1].
  assert (A0 : num X0 = (num l0 * num l0 - num l1 * num l1 - num x0 - num a0 : F)).
  { apply (eq_by ((l0 - l1) * (l0 + l1) - x0 - a0) X0) in E5. rewrite <- E5. num_homg. ring. }
  assert (A1 : num X1 = (num l0 * num l1 + num l1 * num l0 - num x1 - num a1 : F)).
  { apply (eq_by (2 * (l0 * l1) - x1 - a1) X1) in E6. rewrite <- E6. num_homg. ring. }
  rewrite <- A0, <- A1. do 3 f_equal.
  - apply (eq_by (l0 * (x0 - X0) - l1 * (x1 - X1) - y0) Y0) in E7. rewrite <- E7. num_homg. ring.
  - apply (eq_by ((l0 + l1) * (x0 - X0 + (x1 - X1)) - l0 * (x0 - X0) - l1 * (x1 - X1) - y1) Y1) in E8. rewrite <- E8. num_homg. ring.
Qed.

Lemma w_run_ok Q k : forall ss P ss', w_run (Zpos q) Q k ss = Some (P, ss') -> wmul (fq2 q) k (pt Q) = pt P.
Proof.
  induction k as [k IH|k IH|]; intros ss P ss'; cbn [w_run wmul].
  - destruct (w_run (Zpos q) Q k ss) as [[R [|s [|s' r]]]|] eqn:E; try discriminate.
    destruct (wd_check (Zpos q) s R) as [R'|] eqn:E1; [|discriminate]. destruct (wa_check (Zpos q) s' R' Q) as [R''|] eqn:E2; [|discriminate].
    intros [= <- <-]. rewrite (IH _ _ _ E), (wd_ok _ _ _ E1). now apply (wa_ok s').
  - destruct (w_run (Zpos q) Q k ss) as [[R [|s r]]|] eqn:E; try discriminate.
    destruct (wd_check (Zpos q) s R) as [R'|] eqn:E1; [|discriminate].
    intros [= <- <-]. rewrite (IH _ _ _ E). now apply (wd_ok s).
  - now intros [= <- _].
Qed.
Lemma w_run_not_in_order Q k ss : (if w_run (Zpos q) Q k ss then true else false) = true ->
  in_order (fq2 q) k (mkAff (q2 (fst Q)) (q2 (snd Q)) false) = false.
Proof.
  destruct (w_run (Zpos q) Q k ss) as [[P ss']|] eqn:E; [|discriminate]. intros _. apply w_run_ok in E.
  unfold in_order, aff_pt. cbn [ainf ax ay]. fold (pt Q). now rewrite E.
Qed.

End Cert.
