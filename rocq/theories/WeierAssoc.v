(** The chord and tangent law is associative: proof by computation with slopes. *)

From Coq Require Import Field Ring.
From Verif Require Export WeierLaw.

(** The four identities, in any field. *)
Section Slopes.
Context {K : Type} (k0 k1 : K) (kadd kmul ksub kdiv : K -> K -> K) (kopp kinv : K -> K).
Context (KF : field_theory k0 k1 kadd kmul ksub kopp kdiv kinv eq).
Add Field sf : KF.
Notation "0" := k0. Notation "1" := k1. Infix "+" := kadd. Infix "-" := ksub. Infix "*" := kmul. Infix "/" := kdiv.
Notation "- x" := (kopp x).
Context (NZ : forall a b, a <> 0 -> b <> 0 -> a * b <> 0).
(** (B + A) + C = A + (B + C), for B = (x, y), A and C on lines of slopes l and r through B. *)
Lemma G_xy x y l r x1 x3 :
  x1 * x1 = (l * l - x) * x1 + (l + l) * (y - l * x) + x * (l * l - x) ->
  x3 * x3 = (r * r - x) * x3 + (r + r) * (y - r * x) + x * (r * r - x) ->
  let xD := l * l - x - x1 in let yD := 0 - (y + l * (xD - x)) in
  let xE := r * r - x - x3 in let yE := 0 - (y + r * (xE - x)) in
  let y1 := y + l * (x1 - x) in let y3 := y + r * (x3 - x) in
  x3 - xD <> 0 -> xE - x1 <> 0 ->
  let L := (y3 - yD) / (x3 - xD) in let R := (yE - y1) / (xE - x1) in
  L * L - xD - x3 = R * R - x1 - xE /\
  L * (xD - (L * L - xD - x3)) - yD = R * (x1 - (R * R - x1 - xE)) - y1.
Proof.
  intros H1 H3. cbn zeta. intros N1 N2. split; (field_simplify_eq; [|split; assumption]); ring [H1 H3].
Qed.
(** D + D = (D - B) + (D + B), for D = (x, y). *)
Lemma T2_xy x y x2 y2 : 1 + 1 <> 0 -> y2 * y2 = x2 * x2 * x2 + y * y - x * x * x -> y <> 0 -> y2 <> 0 -> x2 - x <> 0 ->
  let u := (y2 - y) / (x2 - x) in let v := (0 - y2 - y) / (x2 - x) in let t := (x * x + x * x + x * x) / (y + y) in
  let xY := u * u - x - x2 in let yY := 0 - (y + u * (xY - x)) in
  let xX := v * v - x - x2 in let yX := 0 - (y + v * (xX - x)) in
  let R := (yY - yX) / (xY - xX) in
  xY - xX <> 0 /\ R * R - xX - xY = t * t - x - x /\ R * (xX - (R * R - xX - xY)) - yX = t * (x - (t * t - x - x)) - y.
Proof.
  intros T H Hy Hy2 D. cbn zeta.
  assert (X : (y2 - y) * (y2 - y) - (0 - y2 - y) * (0 - y2 - y) <> 0).
  { intros E. assert (E' : (y2 * y) * ((1 + 1) * (1 + 1)) = 0) by (transitivity (0 - ((y2 - y) * (y2 - y) - (0 - y2 - y) * (0 - y2 - y))); [ring|rewrite E; ring]).
    apply (NZ _ _ (NZ _ _ Hy2 Hy) (NZ _ _ T T) E'). }
  assert (YY : y + y <> 0) by (intros E; apply (NZ _ _ T Hy); rewrite <- E; ring).
  split; [|split].
  - intros E. apply X. match type of E with ?a = _ => transitivity (a * ((x2 - x) * (x2 - x))); [field; auto|rewrite E; ring] end.
  - field_simplify_eq; [ring [H]|]. split; [exact YY|]. split; [exact D|]. intros E. apply X. etransitivity; [|exact E]. ring.
  - field_simplify_eq; [ring [H]|]. split; [exact YY|]. split; [exact D|]. intros E. apply X. etransitivity; [|exact E]. ring.
Qed.
(** D + D = A + A, for A = D + B and B = (x2, 0). *)
Lemma T3_xy x y x2 : 1 + 1 <> 0 -> y * y = x * x * x - x2 * x2 * x2 -> y <> 0 -> x2 - x <> 0 ->
  let u := (0 - y) / (x2 - x) in let t := (x * x + x * x + x * x) / (y + y) in
  let xA := u * u - x - x2 in let yA := 0 - (y + u * (xA - x)) in
  yA <> 0 ->
  let s := (xA * xA + xA * xA + xA * xA) / (yA + yA) in
  s * s - xA - xA = t * t - x - x /\ s * (xA - (s * s - xA - xA)) - yA = t * (x - (t * t - x - x)) - y.
Proof.
  intros T H Hy D. cbn zeta. intros N.
  assert (YY : y + y <> 0) by (intros E; apply (NZ _ _ T Hy); rewrite <- E; ring).
  set (z := 0 - (y * ((x2 - x) * ((x2 - x) * (x2 - x))) + - y * (- y * - y - x * ((x2 - x) * (x2 - x)) - x2 * ((x2 - x) * (x2 - x)) - x * ((x2 - x) * (x2 - x))))).
  assert (ZZ : z + z <> 0).
  { intros E. assert (Z : (1 + 1) * z = 0) by (rewrite <- E; ring). revert Z. apply NZ; [exact T|]. intros Z. apply N.
    transitivity (z / ((x2 - x) * ((x2 - x) * (x2 - x)))); [unfold z; field; auto|rewrite Z; field; auto]. }
  split; (field_simplify_eq; [ring [H]|]); (split; [exact YY|]; split; [exact D|]; intros E; apply ZZ; etransitivity; [|exact E]; unfold z; ring).
Qed.
End Slopes.

Section Group.
Context {K : Type} (O : fops K) (k1 : K) (kopp kinv : K -> K).
Context (KF : field_theory (k0 O) k1 (kadd O) (kmul O) (ksub O) kopp (kdiv O) kinv eq).
Context (EQ : forall a b, keqb O a b = true <-> a = b) (two : kadd O k1 k1 <> k0 O) (three : kadd O (kadd O k1 k1) k1 <> k0 O).
Context (b : K) (b_nz : b <> k0 O).
Set Default Proof Using "Type*".
Add Field gf : KF.
Notation "0" := (k0 O). Notation "1" := k1. Infix "+" := (kadd O). Infix "-" := (ksub O). Infix "*" := (kmul O). Infix "/" := (kdiv O).
Notation "- x" := (kopp x).
Notation on := (onw O b). Notation add := (wadd O). Notation neg := (wneg O).
Let kc := kcase O k1 kopp kinv KF EQ two.
Let comm A B : on A -> on B -> add A B = add B A := wadd_comm O k1 kopp kinv KF EQ two b A B.
Let closed A B : on A -> on B -> on (add A B) := wadd_on O k1 kopp kinv KF EQ two b A B.
Let none A B : on A -> on B -> (add A B = None <-> B = neg A) := wadd_none O k1 kopp kinv KF EQ two b A B.
Let chord := wadd_ne O k1 kopp kinv KF EQ two.
Let tangent := wdouble_nz O k1 kopp kinv KF EQ two.
Let integral := kintegral O k1 kopp kinv KF EQ two.
Let nz_sub := ksub0 O k1 kopp kinv KF EQ two.
Let nz_mul a c : a <> 0 -> c <> 0 -> a * c <> 0.
Proof. intros H H' E. destruct (integral _ _ E); auto. Qed.
Lemma cancel z a c : z <> 0 -> a * z = c * z -> a = c.
Proof. intros Hz E. transitivity (a * z / z); [field; auto|]. rewrite E. field. auto. Qed.
Lemma sub_eq a c : a - c = 0 -> a = c.
Proof. intros H. transitivity (a - c + c); [ring|rewrite H; ring]. Qed.
Lemma neg_on A : on A -> on (neg A).
Proof. destruct A as [[x y]|]; cbn; auto. intros <-. ring. Qed.
Lemma neg_neg A : neg (neg A) = A.
Proof. destruct A as [[x y]|]; cbn; auto. apply f_equal, f_equal2; [reflexivity|ring]. Qed.
Lemma opp_none A : on A -> add A (neg A) = None.
Proof. intros H. apply none; auto using neg_on. Qed.
(** The slope of a finite sum *)
Lemma slope x1 y1 x2 y2 x3 y3 : on (Some (x1, y1)) -> on (Some (x2, y2)) -> add (Some (x1, y1)) (Some (x2, y2)) = Some (x3, y3) ->
  exists l, y2 = y1 + l * (x2 - x1) /\ x3 = l * l - x1 - x2 /\ y3 = l * (x1 - x3) - y1 /\
    x1 * x1 + x1 * x2 + x2 * x2 = l * (y1 + y1 + l * (x2 - x1)).
Proof.
  cbn [onw]. intros HP HQ. destruct (kc x1 x2) as [[_ <-]|[_ D]].
  - destruct (same_x O k1 kopp kinv KF EQ two x1 y1 y2 b HP HQ) as [->| ->]; [|rewrite (wadd_opp O k1 kopp kinv KF EQ two); discriminate]. rewrite (wadd_eq O k1 kopp kinv KF EQ two).
    destruct (kc y1 0) as [[E _]|[_ N]]; [unfold wdouble; rewrite E; discriminate|].
    destruct (tangent x1 y1 N) as [l [x3' [y3' [-> [L [E3 E4]]]]]]. intros E. assert (x3' = x3) as -> by congruence. assert (y3' = y3) as -> by congruence. clear E.
    exists l. split; [ring|]. split; [exact E3|]. split; [exact E4|]. transitivity (l * (y1 + y1)); [rewrite L; ring|ring].
  - destruct (chord x1 y1 x2 y2 D) as [l [x3' [y3' [-> [L [E3 E4]]]]]]. intros E. assert (x3' = x3) as -> by congruence. assert (y3' = y3) as -> by congruence. clear E.
    assert (E : y2 = y1 + l * (x2 - x1)) by (rewrite L; ring). exists l. split; [exact E|]. split; [exact E3|]. split; [exact E4|].
    apply not_eq_sym, nz_sub in D. apply (cancel (x2 - x1)); [exact D|].
    transitivity ((x2 * x2 * x2 + b) - (x1 * x1 * x1 + b)); [ring|]. rewrite <- HP, <- HQ. rewrite E at 1 2. ring.
Qed.
(** (A + B) - A = B *)
Lemma back A B : on A -> on B -> add (add A B) (neg A) = B.
Proof.
  intros HA HB. destruct A as [[x1 y1]|]; [|now destruct B as [[]|]]. destruct B as [[x2 y2]|]; [|now apply (opp_none (Some (x1, y1)))].
  destruct (add (Some (x1, y1)) (Some (x2, y2))) as [[x3 y3]|] eqn:E; [|apply (proj1 (none _ _ HA HB)) in E; rewrite E; reflexivity]. cbn [wneg].
  destruct (slope _ _ _ _ _ _ HA HB E) as [l [E2 [E3 [E4 C]]]].
  destruct (kc x3 x1) as [[_ X]|[_ D]].
  - assert (Y : y3 = 0 - y1) by (rewrite E4, X; ring). rewrite X, Y in *. clear x3 y3 X Y E4. rewrite (wadd_eq O k1 kopp kinv KF EQ two).
    assert (LL : l * l = x1 + x1 + x2) by (transitivity (l * l - x1 - x2 + x1 + x2); [ring|rewrite <- E3; ring]).
    assert (T : l * (y1 + y1) = x1 * x1 + x1 * x1 + x1 * x1).
    { transitivity (l * (y1 + y1 + l * (x2 - x1)) - l * l * (x2 - x1)); [ring|]. rewrite <- C, LL. ring. }
    assert (N : 0 - y1 <> 0).
    { intros N. assert (Y : y1 = 0) by (transitivity (0 - (0 - y1)); [ring|rewrite N; ring]). subst y1.
      assert (Z : (1 + 1 + 1) * (x1 * x1) = 0) by (transitivity (x1 * x1 + x1 * x1 + x1 * x1); [ring|rewrite <- T; ring]).
      destruct (integral _ _ Z) as [Q|Q]; [exact (three Q)|]. assert (x1 = 0) as -> by (destruct (integral _ _ Q); assumption).
      apply b_nz. cbn [onw] in HA. transitivity (0 * 0 * 0 + b); [ring|rewrite <- HA; ring]. }
    destruct (tangent x1 (0 - y1) N) as [t [x' [y' [-> [T' [-> ->]]]]]].
    assert (t = 0 - l) as ->.
    { apply (cancel (0 - y1 + (0 - y1))). - intros Q. apply (ktwice O k1 kopp kinv KF EQ two (0 - y1) N Q).
      - rewrite T', <- T. ring. }
    assert (X2 : (0 - l) * (0 - l) - x1 - x1 = x2) by (transitivity (l * l - x1 - x1); [ring|rewrite LL; ring]).
    apply f_equal, f_equal2; [exact X2|]. rewrite X2, E2. ring.
  - destruct (chord x3 y3 x1 (0 - y1) D) as [t [x' [y' [-> [T [-> ->]]]]]].
    assert (t = 0 - l) as ->.
    { apply (cancel (x1 - x3)); [apply nz_sub; auto|]. rewrite T, E4. ring. }
    assert (X2 : (0 - l) * (0 - l) - x3 - x1 = x2) by (rewrite E3; ring). apply f_equal, f_equal2; [exact X2|]. rewrite X2, E4, E2. ring.
Qed.
Lemma assoc_none A B C : on A -> on B -> on C -> add (add A B) C = None -> add A (add B C) = None.
Proof.
  intros HA HB HC E. apply none in E; auto. subst C. pose proof (back A B HA HB) as X. set (D := add A B) in *. assert (HD : on D) by (apply closed; auto).
  pose proof (back D (neg A) HD (neg_on _ HA)) as Y. rewrite X in Y. rewrite Y. apply opp_none. auto.
Qed.
Lemma assoc_double A B x y : on A -> on B -> add A B = Some (x, y) -> add (Some (x, y)) (Some (x, y)) <> None -> B <> None -> A <> None ->
  add B (Some (x, y)) <> None -> add A (add B (Some (x, y))) <> None -> add (Some (x, y)) (Some (x, y)) = add A (add B (Some (x, y))).
Proof.
  intros HA HB ED ND NB NA NE NF. assert (HD : on (Some (x, y))) by (rewrite <- ED; auto).
  destruct B as [[x2 y2]|]; [|congruence].
  assert (EA : A = add (Some (x, y)) (Some (x2, 0 - y2))).
  { change (Some (x2, 0 - y2)) with (neg (Some (x2, y2))). rewrite <- ED. rewrite (comm A) by auto. now rewrite back. }
  assert (D2 : x2 <> x).
  { intros ->. cbn [onw] in HB, HD. destruct (same_x O k1 kopp kinv KF EQ two x y2 y b HB HD) as [->| ->].
    - apply NA. rewrite EA. apply (opp_none (Some (x, y2))). exact HB.
    - apply NE. apply (opp_none (Some (x, y2))). exact HB. }
  assert (Dy : y <> 0).
  { intros ->. apply ND. apply none; auto. cbn. apply f_equal, f_equal2; [reflexivity|ring]. }
  rewrite (comm (Some (x2, y2))) in * by auto. pose proof (nz_sub _ _ D2) as N2.
  rewrite (wadd_eq O k1 kopp kinv KF EQ two). destruct (tangent x y Dy) as [t [xt [yt [-> [T [Ext Eyt]]]]]].
  assert (t = (x * x + x * x + x * x) / (y + y)) as -> by (rewrite <- T; field; apply (ktwice O k1 kopp kinv KF EQ two y Dy)). clear T.
  destruct (chord x y x2 y2 (not_eq_sym D2)) as [u [xY [yY [EY [U [ExY EyY]]]]]]. rewrite EY in *.
  assert (u = (y2 - y) / (x2 - x)) as -> by (rewrite <- U; field; auto). clear U.
  destruct (chord x y x2 (0 - y2) (not_eq_sym D2)) as [v [xX [yX [EX [V [ExX EyX]]]]]]. rewrite EX in EA. subst A.
  assert (v = (0 - y2 - y) / (x2 - x)) as -> by (rewrite <- V; field; auto). clear V.
  assert (EyY' : yY = 0 - (y + (y2 - y) / (x2 - x) * (xY - x))) by (rewrite EyY; ring).
  assert (EyX' : yX = 0 - (y + (0 - y2 - y) / (x2 - x) * (xX - x))) by (rewrite EyX; ring). clear EyY EyX.
  cbn [onw] in HB, HD. assert (CB : y2 * y2 = x2 * x2 * x2 + y * y - x * x * x) by (rewrite HB, HD; ring).
  destruct (kc y2 0) as [[_ ->]|[_ Hy2]].
  - assert (xX = xY) as -> by (rewrite ExX, ExY; field; auto). assert (yX = yY) as -> by (rewrite EyX', EyY'; field; auto). clear EyX' ExX EX.
    assert (Ny : yY <> 0).
    { intros ->. apply NF. apply none; auto. cbn. apply f_equal, f_equal2; [reflexivity|ring]. }
    rewrite (wadd_eq O k1 kopp kinv KF EQ two). destruct (tangent xY yY Ny) as [s [xs [ys [-> [T [Exs Eys]]]]]].
    assert (s = (xY * xY + xY * xY + xY * xY) / (yY + yY)) as -> by (rewrite <- T; field; apply (ktwice O k1 kopp kinv KF EQ two yY Ny)). clear T.
    assert (C' : y * y = x * x * x - x2 * x2 * x2) by (transitivity (x2 * x2 * x2 + y * y - x * x * x + x * x * x - x2 * x2 * x2); [ring|rewrite <- CB; ring]).
    pose proof (T3_xy _ _ _ _ _ _ _ _ KF nz_mul x y x2 two C' Dy N2) as P. cbn zeta in P. rewrite <- ExY, <- EyY' in P. specialize (P Ny). destruct P as [P1 P2].
    apply f_equal, f_equal2; congruence.
  - pose proof (T2_xy _ _ _ _ _ _ _ _ KF nz_mul x y x2 y2 two CB Dy Hy2 N2) as P. cbn zeta in P. rewrite <- ExY, <- EyY', <- ExX, <- EyX' in P. destruct P as [P0 [P1 P2]].
    assert (NX : xX <> xY) by (intros Q; apply P0; rewrite Q; ring).
    destruct (chord xX yX xY yY NX) as [R [xr [yr [-> [HR [Exr Eyr]]]]]].
    assert (R = (yY - yX) / (xY - xX)) as -> by (rewrite <- HR; field; auto). clear HR.
    apply f_equal, f_equal2; congruence.
Qed.
Lemma assoc_generic x1 y1 x y x3 y3 xD yD xE yE : on (Some (x1, y1)) -> on (Some (x, y)) -> on (Some (x3, y3)) ->
  add (Some (x1, y1)) (Some (x, y)) = Some (xD, yD) -> add (Some (x, y)) (Some (x3, y3)) = Some (xE, yE) -> xD <> x3 -> x1 <> xE ->
  add (Some (xD, yD)) (Some (x3, y3)) = add (Some (x1, y1)) (Some (xE, yE)).
Proof.
  intros HA HB HC ED EE N1 N2. rewrite comm in ED by auto.
  destruct (slope _ _ _ _ _ _ HB HA ED) as [l [E1 [X1 [Y1 C1]]]]. destruct (slope _ _ _ _ _ _ HB HC EE) as [r [E3 [X3 [Y3 C3]]]].
  destruct (chord xD yD x3 y3 N1) as [L [xF [yF [-> [HL [-> ->]]]]]]. destruct (chord x1 y1 xE yE N2) as [R [xG [yG [-> [HR [-> ->]]]]]].
  pose proof (nz_sub _ _ (not_eq_sym N1)) as M1. pose proof (nz_sub _ _ (not_eq_sym N2)) as M2.
  assert (L = (y3 - yD) / (x3 - xD)) as -> by (rewrite <- HL; field; auto). assert (R = (yE - y1) / (xE - x1)) as -> by (rewrite <- HR; field; auto). clear HL HR.
  assert (H1 : x1 * x1 = (l * l - x) * x1 + (l + l) * (y - l * x) + x * (l * l - x)).
  { transitivity (x * x + x * x1 + x1 * x1 - x * x - x * x1); [ring|rewrite C1; ring]. }
  assert (H3 : x3 * x3 = (r * r - x) * x3 + (r + r) * (y - r * x) + x * (r * r - x)).
  { transitivity (x * x + x * x3 + x3 * x3 - x * x - x * x3); [ring|rewrite C3; ring]. }
  assert (YD : yD = 0 - (y + l * (xD - x))) by (rewrite Y1; ring). assert (YE : yE = 0 - (y + r * (xE - x))) by (rewrite Y3; ring).
  pose proof (G_xy _ _ _ _ _ _ _ _ KF x y l r x1 x3 H1 H3) as P. cbn zeta in P. rewrite <- X1, <- X3, <- YD, <- YE, <- E1, <- E3 in P.
  destruct (P M1 M2) as [P1 P2]. apply f_equal, f_equal2; assumption.
Qed.
Lemma wadd_assoc A B C : on A -> on B -> on C -> add (add A B) C = add A (add B C).
Proof.
  intros HA HB HC. destruct A as [[x1 y1]|]; [|reflexivity]. destruct B as [[x y]|]; [|destruct C as [[]|]; reflexivity].
  assert (R0 : forall X, add X None = X) by (now intros [[]|]). destruct C as [[x3 y3]|]; [|now rewrite !R0].
  set (A := Some (x1, y1)) in *. set (B := Some (x, y)) in *. set (C := Some (x3, y3)) in *.
  destruct (add A B) as [[xD yD]|] eqn:ED.
  2:{ apply none in ED; auto. rewrite ED. cbn [wadd]. symmetry. rewrite comm; auto using neg_on.
      assert (HN : on (neg A)) by (apply neg_on; auto). pose proof (back (neg A) C HN HC) as X. now rewrite neg_neg in X. }
  destruct (add B C) as [[xE yE]|] eqn:EE.
  2:{ apply none in EE; auto. rewrite EE. rewrite <- ED. rewrite (comm A B) by auto. rewrite back by auto. reflexivity. }
  assert (HD : on (Some (xD, yD))) by (rewrite <- ED; auto). assert (HE : on (Some (xE, yE))) by (rewrite <- EE; auto).
  destruct (add (Some (xD, yD)) C) as [F|] eqn:EF.
  2:{ symmetry. rewrite <- EE. apply assoc_none; auto. now rewrite ED. }
  destruct (add A (Some (xE, yE))) as [G|] eqn:EG.
  2:{ exfalso. rewrite comm in EG by auto. rewrite <- EE in EG. rewrite (comm B C) in EG by auto. apply assoc_none in EG; auto.
      rewrite (comm B A), ED, comm in EG by auto. congruence. }
  rewrite <- EF, <- EG. destruct (kc xD x3) as [[_ X]|[_ N1]].
  - assert (EC : C = Some (xD, yD)).
    { subst x3. unfold C. unfold C in HC. cbn [onw] in HC, HD. destruct (same_x O k1 kopp kinv KF EQ two xD yD y3 b HD HC) as [->| ->]; [reflexivity|].
      unfold C in EF. rewrite (wadd_opp O k1 kopp kinv KF EQ two) in EF. discriminate. }
    rewrite EC in *. rewrite <- EE. apply assoc_double; auto; unfold A, B in *; congruence.
  - destruct (kc x1 xE) as [[_ X]|[_ N2]].
    + assert (EA : A = Some (xE, yE)).
      { subst xE. unfold A. unfold A in HA. cbn [onw] in HA, HE. destruct (same_x O k1 kopp kinv KF EQ two x1 y1 yE b HA HE) as [->| ->]; [reflexivity|].
        unfold A in EG. rewrite (wadd_opp O k1 kopp kinv KF EQ two) in EG. discriminate. }
      rewrite EA in *. symmetry. rewrite (comm (Some (xD, yD)) C), <- ED by auto. rewrite (comm _ B) by auto.
      pose proof (comm _ _ HC HB) as Q1. pose proof (comm _ _ HB HE) as Q2. pose proof (comm _ _ HC HD) as Q3.
      apply assoc_double; auto; unfold B, C in *; congruence.
    + apply (assoc_generic x1 y1 x y x3 y3); auto.
Qed.
End Group.
