(** What the group law of the pairing curves computes (PointData.v [wadd], [wdouble],
    [wmul]): the chord and tangent law. *)

From Verif Require Export G2Cert NumClaims.
Open Scope Z_scope.

(** The law of the curve [y^2 = x^3 + b] over the field with operations [O]: infinity
    is neutral, opposite points and only they cancel, and the opposite of a finite sum is the third
    point where the line [y = l x + m] through the two points (the tangent, if they are
    equal) meets the curve. *)
Definition onw {K} (O : fops K) (b : K) (P : option (K * K)) : Prop :=
  match P with None => True | Some (x, y) => kmul O y y = kadd O (kmul O (kmul O x x) x) b end.
Definition wneg {K} (O : fops K) (P : option (K * K)) : option (K * K) :=
  match P with None => None | Some (x, y) => Some (x, ksub O (k0 O) y) end.
Definition chord_law {K} (O : fops K) (b : K) (add : option (K * K) -> option (K * K) -> option (K * K)) : Prop :=
  forall P Q, onw O b P -> onw O b Q ->
  add None Q = Q /\ add P None = P /\ add P Q = add Q P /\ onw O b (add P Q) /\ (add P Q = None <-> Q = wneg O P) /\
  forall x1 y1 x2 y2 x3 y3, P = Some (x1, y1) -> Q = Some (x2, y2) -> add P Q = Some (x3, y3) ->
  exists l m, y1 = kadd O (kmul O l x1) m /\ y2 = kadd O (kmul O l x2) m /\ ksub O (k0 O) y3 = kadd O (kmul O l x3) m /\
    forall x, let y := kadd O (kmul O l x) m in
      ksub O (kadd O (kmul O (kmul O x x) x) b) (kmul O y y) = kmul O (kmul O (ksub O x x1) (ksub O x x2)) (ksub O x x3).

Section Law.
Context {K : Type} (O : fops K) (k1 : K) (kopp kinv : K -> K).
Context (KF : field_theory (k0 O) k1 (kadd O) (kmul O) (ksub O) kopp (kdiv O) kinv eq).
Context (EQ : forall a b, keqb O a b = true <-> a = b) (two : kadd O k1 k1 <> k0 O).
Set Default Proof Using "Type*".
Add Field kf : KF.
Notation "0" := (k0 O). Notation "1" := k1. Infix "+" := (kadd O). Infix "-" := (ksub O). Infix "*" := (kmul O). Infix "/" := (kdiv O).
Notation "- x" := (kopp x).

Lemma kcase a b : (keqb O a b = true /\ a = b) \/ (keqb O a b = false /\ a <> b).
Proof. destruct (keqb O a b) eqn:E; [left; split; auto; now apply EQ|right; split; auto]. intros H. apply EQ in H. congruence. Qed.
Lemma kintegral a b : a * b = 0 -> a = 0 \/ b = 0.
Proof.
  intros H. destruct (kcase a 0) as [[_ X]|[_ X]]; [auto|right]. transitivity (a * b / a); [field; auto|]. rewrite H. field. auto.
Qed.
Lemma ksub0 a b : a <> b -> a - b <> 0.
Proof. intros H E. apply H. transitivity (a - b + b); [ring|]. rewrite E. ring. Qed.
Lemma ktwice a : a <> 0 -> a + a <> 0.
Proof. intros H E. assert (X : (1 + 1) * a = 0) by (rewrite <- E; ring). destruct (kintegral _ _ X); auto. Qed.
Lemma same_x x y y' b : y * y = x * x * x + b -> y' * y' = x * x * x + b -> y' = y \/ y' = 0 - y.
Proof.
  intros H H'. assert (X : (y' - y) * (y' + y) = 0) by (transitivity (y' * y' - y * y); [ring|rewrite H, H'; ring]).
  destruct (kintegral _ _ X) as [E|E]; [left|right]; [transitivity (y' - y + y)|transitivity (y' + y - y)]; try ring; rewrite E; ring.
Qed.

(** The chord *)
Lemma wadd_ne x1 y1 x2 y2 : x1 <> x2 -> exists l x3 y3, wadd O (Some (x1, y1)) (Some (x2, y2)) = Some (x3, y3) /\
  l * (x2 - x1) = y2 - y1 /\ x3 = l * l - x1 - x2 /\ y3 = l * (x1 - x3) - y1.
Proof.
  intros H. pose proof (ksub0 x2 x1 (not_eq_sym H)) as D. unfold wadd. destruct (kcase x1 x2) as [[_ X]|[-> _]]; [contradiction|].
  exists ((y2 - y1) / (x2 - x1)). eexists _, _. split; [reflexivity|]. split; [field; exact D|split; reflexivity].
Qed.
Lemma wdouble_nz x y : y <> 0 -> exists l x3 y3, wdouble O (Some (x, y)) = Some (x3, y3) /\
  l * (y + y) = x * x + x * x + x * x /\ x3 = l * l - x - x /\ y3 = l * (x - x3) - y.
Proof.
  intros H. pose proof (ktwice y H) as D. unfold wdouble. destruct (kcase y 0) as [[_ X]|[-> _]]; [contradiction|].
  exists ((x * x + x * x + x * x) / (y + y)). eexists _, _. split; [reflexivity|]. split; [|split; reflexivity]. field. exact D.
Qed.
Lemma wadd_eq x y : wadd O (Some (x, y)) (Some (x, y)) = wdouble O (Some (x, y)).
Proof. unfold wadd. destruct (kcase x x) as [[-> _]|[_ X]]; [|congruence]. destruct (kcase y y) as [[-> _]|[_ X]]; [reflexivity|congruence]. Qed.
Lemma wadd_opp x y : wadd O (Some (x, y)) (Some (x, 0 - y)) = None.
Proof.
  unfold wadd. destruct (kcase x x) as [[-> _]|[_ X]]; [|congruence]. destruct (kcase y (0 - y)) as [[-> X]|[-> _]]; [|reflexivity].
  unfold wdouble. destruct (kcase y 0) as [[-> _]|[_ N]]; [reflexivity|]. exfalso. apply (ktwice y N). rewrite X at 2. ring.
Qed.
(** Two equations with one leading term fix a line through a point and its slope *)
Lemma line_cubic b l x1 y1 x2 x3 : y1 * y1 = x1 * x1 * x1 + b -> x3 = l * l - x1 - x2 ->
  (y1 + l * (x2 - x1)) * (y1 + l * (x2 - x1)) = x2 * x2 * x2 + b -> (x1 <> x2 \/ (x1 = x2 /\ l * (y1 + y1) = x1 * x1 + x1 * x1 + x1 * x1)) ->
  forall x, x * x * x + b - (l * x + (y1 - l * x1)) * (l * x + (y1 - l * x1)) = (x - x1) * (x - x2) * (x - x3).
Proof.
  intros H1 -> H2 HD x.
  assert (C : x1 * x1 + x1 * x2 + x2 * x2 = l * (y1 + y1 + l * (x2 - x1))).
  { destruct HD as [D|[<- T]].
    - apply not_eq_sym, ksub0 in D.
      assert (X : (x2 - x1) * (x1 * x1 + x1 * x2 + x2 * x2 - l * (y1 + y1 + l * (x2 - x1))) = 0).
      { transitivity ((x2 * x2 * x2 + b) - (x1 * x1 * x1 + b) - ((y1 + l * (x2 - x1)) * (y1 + l * (x2 - x1)) - y1 * y1)); [ring|]. rewrite H1, H2. ring. }
      destruct (kintegral _ _ X) as [E|E]; [contradiction|]. match type of E with ?a - ?c = _ => transitivity (a - c + c); [ring|rewrite E; ring] end.
    - rewrite <- T. ring. }
  assert (B : b = y1 * y1 - x1 * x1 * x1) by (rewrite H1; ring). subst b.
  assert (Z : (x - x1) * ((x1 * x1 + x1 * x2 + x2 * x2) - l * (y1 + y1 + l * (x2 - x1))) = 0) by (rewrite C; ring).
  match goal with |- ?L = ?R => transitivity (L - (x - x1) * ((x1 * x1 + x1 * x2 + x2 * x2) - l * (y1 + y1 + l * (x2 - x1)))); [rewrite Z; ring|ring] end.
Qed.
Lemma wadd_comm b P Q : onw O b P -> onw O b Q -> wadd O P Q = wadd O Q P.
Proof.
  destruct P as [[x1 y1]|], Q as [[x2 y2]|]; cbn [onw]; intros HP HQ; try reflexivity.
  destruct (kcase x1 x2) as [[_ <-]|[_ D]].
  - destruct (same_x x1 y1 y2 b HP HQ) as [->| ->]; [reflexivity|]. rewrite wadd_opp.
    assert (E : y1 = 0 - (0 - y1)) by ring. rewrite E at 2. now rewrite wadd_opp.
  - destruct (wadd_ne x1 y1 x2 y2 D) as [l [x3 [y3 [-> [L [-> ->]]]]]]. destruct (wadd_ne x2 y2 x1 y1 (not_eq_sym D)) as [l' [x3' [y3' [-> [L' [-> ->]]]]]].
    assert (l' = l) as ->.
    { pose proof (ksub0 _ _ (not_eq_sym D)) as N. transitivity (l' * (x2 - x1) / (x2 - x1)); [field; auto|]. transitivity (l * (x2 - x1) / (x2 - x1)); [|field; auto].
      apply (f_equal (fun z => z / (x2 - x1))). rewrite L. transitivity (0 - l' * (x1 - x2)); [ring|]. rewrite L'. ring. }
    apply f_equal, f_equal2; [ring|]. assert (E : y2 = y1 + l * (x2 - x1)) by (rewrite L; ring). rewrite E. ring.
Qed.
Lemma wadd_line b x1 y1 x2 y2 x3 y3 : onw O b (Some (x1, y1)) -> onw O b (Some (x2, y2)) -> wadd O (Some (x1, y1)) (Some (x2, y2)) = Some (x3, y3) ->
  exists l m, y1 = l * x1 + m /\ y2 = l * x2 + m /\ 0 - y3 = l * x3 + m /\
    forall x, let y := l * x + m in x * x * x + b - y * y = (x - x1) * (x - x2) * (x - x3).
Proof.
  cbn [onw]. intros HP HQ. destruct (kcase x1 x2) as [[_ <-]|[_ D]].
  - destruct (same_x x1 y1 y2 b HP HQ) as [->| ->]; [|rewrite wadd_opp; discriminate]. rewrite wadd_eq.
    destruct (kcase y1 0) as [[E _]|[_ N]]; [unfold wdouble; rewrite E; discriminate|].
    destruct (wdouble_nz x1 y1 N) as [l [x3' [y3' [-> [L [E3 E4]]]]]]. intros E. assert (x3' = x3) as -> by congruence. assert (y3' = y3) as -> by congruence. clear E.
    exists l, (y1 - l * x1). split; [ring|]. split; [ring|]. split; [rewrite E4; ring|]. intros x. apply (line_cubic b l x1 y1 x1 x3); auto.
    transitivity (y1 * y1); [ring|exact HP].
  - destruct (wadd_ne x1 y1 x2 y2 D) as [l [x3' [y3' [-> [L [E3 E4]]]]]]. intros E. assert (x3' = x3) as -> by congruence. assert (y3' = y3) as -> by congruence. clear E.
    assert (E : y2 = y1 + l * (x2 - x1)) by (rewrite L; ring).
    exists l, (y1 - l * x1). split; [ring|]. split; [rewrite E; ring|]. split; [rewrite E4; ring|]. intros x. apply (line_cubic b l x1 y1 x2 x3); auto.
    rewrite <- E. exact HQ.
Qed.
Lemma wadd_on b P Q : onw O b P -> onw O b Q -> onw O b (wadd O P Q).
Proof.
  destruct P as [[x1 y1]|], Q as [[x2 y2]|]; intros HP HQ; auto. destruct (wadd O _ _) as [[x3 y3]|] eqn:E; [|exact I].
  destruct (wadd_line b _ _ _ _ _ _ HP HQ E) as [l [m [_ [_ [E3 C]]]]]. specialize (C x3). cbn zeta in C. rewrite <- E3 in C. cbn [onw].
  assert (Z : x3 * x3 * x3 + b - (0 - y3) * (0 - y3) = 0) by (rewrite C; ring).
  transitivity (x3 * x3 * x3 + b - (x3 * x3 * x3 + b - (0 - y3) * (0 - y3))); [ring|rewrite Z; ring].
Qed.
Lemma wadd_none b P Q : onw O b P -> onw O b Q -> (wadd O P Q = None <-> Q = wneg O P).
Proof.
  destruct P as [[x1 y1]|], Q as [[x2 y2]|]; cbn [wneg]; intros HP HQ; try (split; intros; cbn in *; congruence).
  destruct (kcase x1 x2) as [[_ <-]|[_ D]].
  - destruct (same_x x1 y1 y2 b HP HQ) as [->| ->]; [|rewrite wadd_opp; tauto]. rewrite wadd_eq. split.
    + destruct (kcase y1 0) as [[_ ->]|[_ N]]; [intros _; apply f_equal, f_equal2; [reflexivity|ring]|].
      destruct (wdouble_nz x1 y1 N) as [l [x3 [y3 [-> _]]]]. discriminate.
    + intros E. assert (X : y1 = 0 - y1) by congruence. destruct (kcase y1 0) as [[E0 _]|[_ N]]; [unfold wdouble; now rewrite E0|].
      exfalso. apply (ktwice y1 N). rewrite X at 2. ring.
  - destruct (wadd_ne x1 y1 x2 y2 D) as [l [x3 [y3 [-> _]]]]. split; intros; congruence.
Qed.
Lemma wadd_law b : chord_law O b (wadd O).
Proof.
  intros P Q HP HQ. split; [reflexivity|]. split; [now destruct P as [[]|]|]. split; [now apply wadd_comm with b|].
  split; [now apply wadd_on|]. split; [now apply wadd_none with b|]. intros x1 y1 x2 y2 x3 y3 -> ->. now apply wadd_line.
Qed.
Lemma wdouble_add P : wdouble O P = wadd O P P.
Proof. destruct P as [[x y]|]; [now rewrite wadd_eq|reflexivity]. Qed.
End Law.
