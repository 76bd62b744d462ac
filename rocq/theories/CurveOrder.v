(** The exponent of a twisted Edwards group from a few certified points. *)

From Verif Require Export MontSpec.
Open Scope num_scope.

Section Order.
Context {p : positive} (Hp : prime (Zpos p)).
Notation F := (Num p).
Add Field co_field : (num_field Hp) (morphism (@num_morph p), constants [num_cst], power_tac (@num_power p) [num_pow_cst]).
Variable d : F.
Hypothesis Hm1 : is_square (- (1) : F).
Hypothesis Hd : ~ is_square d.
Notation onc := (on_curve d).
Notation "P +e Q" := (eadd d P Q) (at level 50, left associativity).
Implicit Types (P Q : EPoint p).
Set Default Proof Using "Type*".
Let EG := edwards_group Hp d Hm1 Hd.
Let nz := @nmul_nonzero p Hp.
Let H2 := two_neq0 Hp d Hm1 Hd.

(** ** At most two points for each x *)
Definition pts_at (x : F) : list (EPoint p) :=
  match find (fun y => e_is_in_curve d (mkE x y)) all_nums with
  | Some y => [mkE x y; mkE x (- y)]
  | None => []
  end.
Definition points : list (EPoint p) :=
  nodup epoint_dec (filter (e_is_in_curve d) (flat_map pts_at all_nums)).

Lemma points_length : (length points <= 2 * Pos.to_nat p)%nat.
Proof.
  unfold points.
  assert (X : forall l : list (EPoint p), (length (nodup epoint_dec l) <= length l)%nat).
  { induction l as [|a l IH]; cbn; auto. destruct (in_dec _ _ _); cbn; lia. }
  assert (Y : forall (f : EPoint p -> bool) l, (length (filter f l) <= length l)%nat).
  { induction l as [|a l IH]; cbn; auto. destruct (f a); cbn; lia. }
  eapply Nat.le_trans; [apply X|]. eapply Nat.le_trans; [apply Y|]. rewrite <- (@all_nums_length p).
  induction all_nums as [|x l IH]; cbn [flat_map length]; [lia|]. rewrite app_length.
  assert (length (pts_at x) <= 2)%nat by (unfold pts_at; destruct (find _ _); cbn; lia). lia.
Qed.
Lemma points_ok P : onc P <-> In P points.
Proof.
  unfold points. rewrite nodup_In, filter_In, e_is_in_curve_iff. split; [|tauto]. intros H. split; auto.
  apply in_flat_map. exists (ex P). split; [apply in_all_nums|]. unfold pts_at.
  destruct (find _ _) as [y|] eqn:E.
  - apply find_some in E. destruct E as [_ E]. apply e_is_in_curve_iff in E.
    destruct P as [x y']. cbn [ex] in *. apply (onc_iff_x Hp d Hm1 Hd) in E. apply (onc_iff_x Hp d Hm1 Hd) in H.
    rewrite <- E in H. destruct (square_roots Hp _ _ H) as [->| ->]; cbn; auto.
  - exfalso. pose proof (find_none _ _ E (ey P) (in_all_nums _)) as Hn. cbv beta in Hn.
    assert (X : e_is_in_curve d (mkE (ex P) (ey P)) = true) by (apply e_is_in_curve_iff; destruct P; exact H). congruence.
Qed.
Lemma card_kills P : onc P -> emul d (Z.of_nat (length points)) P = e_zero.
Proof. apply (group_card EG); [apply NoDup_nodup|exact points_ok]. Qed.

(** ** Doubling *)
Lemma double_eqs P : onc P ->
  ex (P +e P) * (ey P * ey P - ex P * ex P) = (1 + 1) * (ex P * ey P) /\
  ey (P +e P) * (1 + 1 - (ey P * ey P - ex P * ex P)) = ey P * ey P + ex P * ex P /\
  ey P * ey P - ex P * ex P <> 0 /\ 1 + 1 - (ey P * ey P - ex P * ex P) <> 0.
Proof.
  intros H. destruct (complete Hp d Hm1 Hd P P H H) as [K1 K2]. unfold on_curve in H.
  set (x := ex P) in *. set (y := ey P) in *.
  assert (E1 : 1 + d * x * x * y * y = y * y - x * x) by (rewrite H; ring).
  assert (E2 : 1 - d * x * x * y * y = 1 + 1 - (y * y - x * x)) by (rewrite H; ring).
  rewrite <- E2, <- E1. unfold eadd; cbn [ex ey]. fold x y. repeat split; auto; field; auto.
Qed.
Lemma double_square P : onc P -> is_square ((1 - ey (P +e P) * ey (P +e P)) * (1 + d)).
Proof.
  intros H. destruct (double_eqs P H) as [_ [E [_ N]]]. unfold on_curve in H.
  set (y3 := ey (P +e P)) in *. set (x := ex P) in *. set (y := ey P) in *.
  set (w := 1 + 1 - (y * y - x * x)) in *.
  assert (K : (1 - y3 * y3) * (1 + d) * (w * w) = - (1) * (((1 + 1) * (1 + d) * x * y) * ((1 + 1) * (1 + d) * x * y))).
  { transitivity ((w * w - (y3 * w) * (y3 * w)) * (1 + d)); [ring|]. rewrite E. unfold w. 
    assert (C : d * x * x * y * y = y * y - x * x - 1) by (rewrite H; ring).
    ring [C]. }
  assert (S : is_square ((1 - y3 * y3) * (1 + d) * (w * w))).
  { rewrite K. apply (is_square_mul Hp); auto. apply is_square_sq. }
  destruct S as [r Er]. exists (r / w). transitivity (r * r / (w * w)); [field; auto|]. rewrite Er. field; auto.
Qed.
Lemma double_zero P : onc P -> P +e P = e_zero -> P = e_zero \/ P = T2.
Proof.
  intros H E. apply (onc_x0 Hp d Hm1 Hd); auto.
  apply (gopp_unique EG) in E; auto. apply (f_equal ex) in E. cbn [eneg ex] in E.
  assert (X : (1 + 1) * ex P = 0) by (transitivity (ex P + ex P); [ring|]; rewrite E at 1; ring).
  destruct (nmul_integral Hp _ _ X); auto. now destruct H2.
Qed.
Lemma double_T2 P : onc P -> P +e P = T2 -> ey P = 0.
Proof.
  intros H E. destruct (double_eqs P H) as [E1 _]. rewrite E in E1. cbn [T2 ex] in E1.
  assert (X : (1 + 1) * (ex P * ey P) = 0) by (rewrite <- E1; ring).
  destruct (nmul_integral Hp _ _ X) as [|X']; [now destruct H2|]. destruct (nmul_integral Hp _ _ X') as [Z|]; auto.
  exfalso. apply (T2_neq Hp d Hm1 Hd). rewrite <- E. destruct (onc_x0 Hp d Hm1 Hd P H Z) as [-> | ->].
  - apply (gadd0 _ _ _ _ EG). apply (onc_zero Hp d Hm1 Hd).
  - apply (T2_double Hp d Hm1 Hd).
Qed.
Lemma double_y0 P : onc P -> ey (P +e P) = 0 -> ey P * ey P + ex P * ex P = 0.
Proof. intros H E. destruct (double_eqs P H) as [_ [E1 _]]. rewrite E in E1. rewrite <- E1. ring. Qed.

Lemma y0_double P : onc P -> ey P = 0 -> P +e P = T2.
Proof.
  intros H E. destruct (double_eqs P H) as [E1 [E2 [N1 N2]]]. unfold on_curve in H. rewrite E in *.
  assert (C : ex P * ex P = - (1)).
  { transitivity (- (0 * 0 - ex P * ex P)); [ring|]. rewrite H. ring. }
  rewrite C in *. apply e_ext; cbn [T2 ex ey].
  - transitivity (ex (P +e P) * (0 * 0 - - (1))); [ring|]. rewrite E1. ring.
  - transitivity (ey (P +e P) * (1 + 1 - (0 * 0 - - (1)))); [ring|]. rewrite E2. ring.
Qed.
Lemma sum0_double P : onc P -> ey P * ey P + ex P * ex P = 0 -> ey (P +e P) = 0.
Proof.
  intros H E. destruct (double_eqs P H) as [_ [E2 [_ N]]]. rewrite E in E2.
  destruct (nmul_integral Hp _ _ E2); auto. now destruct N.
Qed.

Lemma emul_double z P : onc P -> emul d (2 * z) P = emul d z P +e emul d z P.
Proof. intros H. unfold emul. rewrite (zmul_mul EG), (zmul_2 EG); auto. now apply (ok_zmul EG). Qed.

Lemma emul_2 P : onc P -> emul d 2 P = P +e P.
Proof. exact (fun H => zmul_2 EG P H). Qed.
Lemma emul_mul a b P : onc P -> emul d (a * b) P = emul d a (emul d b P).
Proof. exact (fun H => zmul_mul EG a b P H). Qed.
Lemma emul_order_pow2 k n P : onc P -> (0 <= k)%Z -> emul d (2 ^ (k + 1)) P = e_zero -> emul d (2 ^ k) P <> e_zero ->
  emul d n P = e_zero -> (2 ^ (k + 1) | n)%Z.
Proof. exact (fun H => zmul_order_pow2 EG k n P H). Qed.
Lemma emul_order_prime l n P : onc P -> prime l -> emul d l P = e_zero -> P <> e_zero -> emul d n P = e_zero -> (l | n)%Z.
Proof. exact (fun H => zmul_order_prime EG l n P H). Qed.
Opaque emul.
Variable W8 : EPoint p.
Hypothesis W8c : onc W8.
Hypothesis W8s : ey W8 * ey W8 + ex W8 * ex W8 = 0.
Lemma W8_order : emul d 8 W8 = e_zero /\ emul d 4 W8 = T2.
Proof.
  assert (E2 : emul d 2 W8 = W8 +e W8) by now apply emul_2.
  assert (E4 : emul d 4 W8 = T2).
  { change 4%Z with (2 * 2)%Z. rewrite emul_double, E2 by auto. apply y0_double; [now apply (ok_add _ _ _ _ EG)|].
    now apply sum0_double. }
  split; auto. change 8%Z with (2 * 4)%Z. rewrite emul_double, E4 by auto. apply (T2_double Hp d Hm1 Hd).
Qed.
Hypothesis W8n : ~ is_square ((1 - ey W8 * ey W8) * (1 + d)).
Lemma no_order_16 Q : onc Q -> emul d 16 Q = e_zero -> emul d 8 Q = e_zero.
Proof.
  intros H E. change 16%Z with (2 * 8)%Z in E. rewrite emul_double in E by auto.
  pose proof (onc_emul Hp d Hm1 Hd 8 Q H) as C8. pose proof (onc_emul Hp d Hm1 Hd 4 Q H) as C4.
  pose proof (onc_emul Hp d Hm1 Hd 2 Q H) as C2.
  destruct (double_zero _ C8 E) as [E8|E8]; [exact E8|]. exfalso.
  change 8%Z with (2 * 4)%Z in E8. rewrite emul_double in E8 by auto. apply double_T2 in E8; auto.
  change 4%Z with (2 * 2)%Z in E8. rewrite emul_double in E8 by auto. apply double_y0 in E8; auto.
  assert (E2 : emul d 2 Q = Q +e Q) by now apply emul_2.
  pose proof (double_square Q H) as S. rewrite <- E2 in S. set (W := emul d 2 Q) in *.
  assert (K : forall P, onc P -> ey P * ey P + ex P * ex P = 0 -> d * ((ey P * ey P) * (ey P * ey P)) + (1 + 1) * (ey P * ey P) = 1).
  { intros P HP EP. unfold on_curve in HP. assert (X : ex P * ex P = - (ey P * ey P)).
    { transitivity ((ey P * ey P + ex P * ex P) - ey P * ey P); [ring|]. rewrite EP. ring. }
    set (c := ey P * ey P) in *.
    transitivity (c - - c - d * (- c) * c); [ring|]. rewrite <- X. transitivity (c - ex P * ex P - d * (ex P * ex P) * (ey P * ey P)); [reflexivity|].
    fold c. rewrite HP. unfold c. ring. }
  pose proof (K W C2 E8) as KW. pose proof (K W8 W8c W8s) as K8.
  set (c := ey W * ey W) in *. set (c8 := ey W8 * ey W8) in *.
  assert (F1 : (c - c8) * (d * (c + c8) + (1 + 1)) = 0).
  { transitivity ((d * (c * c) + (1 + 1) * c) - (d * (c8 * c8) + (1 + 1) * c8)); [ring|]. rewrite KW, K8. ring. }
  destruct (nmul_integral Hp _ _ F1) as [F2|F2].
  - apply W8n. replace c8 with c; auto. transitivity ((c - c8) + c8); [ring|]. rewrite F2. ring.
  - assert (F3 : - d * (c * c8) = 1).
    { rewrite <- K8. transitivity (d * (c8 * c8) + (1 + 1) * c8 - c8 * (d * (c + c8) + (1 + 1))); [ring|]. rewrite F2. ring. }
    apply Hd. pose proof Hm1 as [i Hi].
    assert (Nz : ey W * ey W8 <> 0).
    { intros Z. apply (n1_neq_n0 Hp). rewrite <- F3. unfold c, c8. transitivity (- d * ((ey W * ey W8) * (ey W * ey W8))); [ring|]. rewrite Z. ring. }
    exists (i / (ey W * ey W8)). transitivity (i * i / ((ey W * ey W8) * (ey W * ey W8))); [field|].
    { split; intros Z; apply Nz; rewrite Z; ring. }
    rewrite Hi. set (e := ey W * ey W8) in *. transitivity (d * (e * e) / (e * e)); [|field; auto]. f_equal. rewrite <- F3. unfold c, c8, e. ring.
Qed.

Variables (l : Z) (G : EPoint p).
Hypothesis Hl : prime l.
Hypothesis Lo : Z.Odd l.
Hypothesis Lb : (2 * Zpos p < 24 * l)%Z.
Hypothesis Gc : onc G.
Hypothesis G0 : G <> e_zero.
Hypothesis Gl : emul d l G = e_zero.
Theorem exponent P : onc P -> emul d (8 * l) P = e_zero.
Proof.
  intros H. set (n := Z.of_nat (length points)).
  assert (D1 : (l | n)%Z) by (apply (emul_order_prime l n G); auto; now apply card_kills).
  destruct W8_order as [E8 E4].
  assert (D2 : (8 | n)%Z).
  { apply (emul_order_pow2 2 n W8); auto; [lia| |now apply card_kills].
    change (2 ^ 2)%Z with 4%Z. rewrite E4. apply (T2_neq Hp d Hm1 Hd). }
  assert (D3 : (8 * l | n)%Z).
  { destruct D2 as [k Ek]. assert (Dk : (l | k)%Z).
    { apply Gauss with 8%Z; [destruct D1 as [j Ej]; exists j; lia|]. change 8%Z with (2 ^ 3)%Z.
      apply Zpow_facts.rel_prime_Zpower_r; [lia|].
      apply rel_prime_sym, prime_rel_prime; [exact prime_2|]. intros [j Ej]. destruct Lo as [m Em]. lia. }
    destruct Dk as [j Ej]. exists j. lia. }
  assert (B1 : (n <= 2 * Zpos p)%Z) by (pose proof points_length; unfold n; lia).
  assert (B2 : (0 < n)%Z).
  { unfold n. destruct points eqn:Ep; [|cbn; lia]. exfalso. pose proof (proj1 (points_ok G) Gc) as X. now rewrite Ep in X. }
  assert (L0 : (1 < l)%Z) by (destruct Hl; lia).
  pose proof (card_kills P H) as KP. fold n in KP. destruct D3 as [k Ek].
  assert (Hk : k = 1%Z \/ k = 2%Z) by nia.
  destruct Hk as [-> | ->].
  - rewrite <- KP. f_equal. lia.
  - rewrite emul_mul by auto. apply no_order_16; [now apply (onc_emul Hp d Hm1 Hd)|].
    rewrite <- emul_mul by auto. replace (16 * l)%Z with n by lia. exact KP.
Qed.
Transparent emul.
End Order.

(** ** Straight-line programs over Montgomery points with explicit quotients *)
Inductive mstep : Type :=
| MDbl (i : nat) (lam u v q1 q2 q3 : Z)
| MAdd (i j : nat) (neg : bool) (lam u v q1 q2 q3 : Z).
Open Scope Z_scope.
Definition mreg : Type := Z * Z * Z.
Definition get_reg (rs : list mreg) (i : nat) : mreg := nth i rs (0, 0, 0).
Definition mstep_run (p A B : Z) (s : mstep) (rs : list mreg) : option (list mreg) :=
  match s with
  | MDbl i lam u3 v3 q1 q2 q3 =>
      let '(k, u, v) := get_reg rs i in
      if (0 <? u3) && (u3 <? p) && (0 <? u) &&
         (3 * (u * u) + 2 * (A * u) + 1 - 2 * (B * (lam * v)) =? q1 * p) &&
         (B * (lam * lam) - A - 2 * u - u3 =? q2 * p) &&
         (lam * (u - u3) - v - v3 =? q3 * p)
      then Some ((2 * k, u3, v3) :: rs) else None
  | MAdd i j neg lam u3 v3 q1 q2 q3 =>
      let '(k, u, v) := get_reg rs i in
      let '(k', u', v') := get_reg rs j in
      let w := if neg then - v' else v' in
      if (0 <? u3) && (u3 <? p) && (0 <? u') && (0 <? u) && negb (u =? u') &&
         (lam * (u' - u) - (w - v) =? q1 * p) &&
         (B * (lam * lam) - A - u - u' - u3 =? q2 * p) &&
         (lam * (u - u3) - v - v3 =? q3 * p)
      then Some ((k + (if neg then - k' else k'), u3, v3) :: rs) else None
  end.
Fixpoint mprog_run (p A B : Z) (ss : list mstep) (rs : list mreg) : option (list mreg) :=
  match ss with
  | [] => Some rs
  | s :: ss => match mstep_run p A B s rs with Some rs => mprog_run p A B ss rs | None => None end
  end.
Definition mprog_check (p A B l : Z) (ss : list mstep) (u v : Z) : bool :=
  (0 <? u) && (u <? p) &&
  match mprog_run p A B ss [(1, u, v)] with
  | Some ((k1, u1, v1) :: (k2, u2, v2) :: _) => (k1 + k2 =? l) && (u1 =? u2) && (v1 + v2 =? p)
  | _ => false
  end.

Section Prog.
Context {p : positive} (Hp : prime (Zpos p)).
Notation F := (Num p).
Add Field cp_field : (num_field Hp) (morphism (@num_morph p), constants [num_cst], power_tac (@num_power p) [num_pow_cst]).
Open Scope num_scope.
Variable d : F.
Variables A B : Z.
Hypothesis Hm1 : is_square (- (1) : F).
Hypothesis Hd : ~ is_square d.
Notation An := (num A : F).
Notation Bn := (num B : F).
Hypothesis HM : mont_ok d An Bn.
Variable G : EPoint p.
Hypothesis Gc : on_curve d G.
Notation onc := (on_curve d).
Notation "P +e Q" := (eadd d P Q) (at level 50, left associativity).
Set Default Proof Using "Type*".
Let EG := edwards_group Hp d Hm1 Hd.

Definition reg_ok (r : mreg) : Prop :=
  let '(k, u, v) := r in (0 < u < Zpos p)%Z /\ mrel An Bn (emul d k G) (mkM (num u) (num v)).
Definition reg_ok0 (r : mreg) : Prop := let '(k, u, v) := r in (u = 0)%Z \/ reg_ok r.

Lemma num_zero_iff (u : Z) : (0 < u < Zpos p)%Z -> (num u : F) <> 0.
Proof. intros H E. apply (f_equal nval) in E. rewrite nval_num_small, nval_zero in E by lia. lia. Qed.
Lemma num_inj_small (u w : Z) : (0 < u < Zpos p)%Z -> (0 < w < Zpos p)%Z -> u <> w -> (num u : F) <> num w.
Proof. intros H1 H2 N E. apply (f_equal nval) in E. rewrite !nval_num_small in E by lia. lia. Qed.
Lemma num_of_mult (z q : Z) : z = (q * Zpos p)%Z -> (num z : F) = 0.
Proof. intros ->. change (0 : F) with (num 0 : F). apply num_eq_mod. rewrite Z_mod_mult. reflexivity. Qed.
Lemma sub0 (a b : F) : a - b = 0 -> a = b.
Proof. intros E. transitivity ((a - b) + b); [ring|]. rewrite E. ring. Qed.
Lemma mrel_neg P u v : mrel An Bn P (mkM u v) -> mrel An Bn (eneg P) (mkM u (- v)).
Proof.
  intros [C [E1 E2]]. unfold mrel, on_mont, eneg in *; cbn [mx my ex ey] in *. repeat split; auto.
  - rewrite <- C. ring.
  - rewrite <- E2. ring.
Qed.
Lemma get_reg_ok rs i : Forall reg_ok rs -> reg_ok0 (get_reg rs i).
Proof.
  intros H. unfold get_reg. destruct (nth_in_or_default i rs (0, 0, 0)%Z) as [X|X].
  - rewrite Forall_forall in H. specialize (H _ X). unfold reg_ok0. destruct (nth i rs _) as [[? ?] ?]. auto.
  - rewrite X. now left.
Qed.
Ltac push := do 6 rewrite ?num_add, ?num_sub, ?num_mul, ?num_opp in *.
Lemma mstep_ok s rs rs' : Forall reg_ok rs -> mstep_run (Zpos p) A B s rs = Some rs' -> Forall reg_ok rs'.
Proof.
  intros H. pose proof (two_neq0 Hp d Hm1 Hd) as N2. pose proof (B_neq0 Hp d An Bn Hm1 Hd HM) as NB. destruct s as [i lam u3 v3 q1 q2 q3|i j neg lam u3 v3 q1 q2 q3]; cbn [mstep_run].
  - pose proof (get_reg_ok rs i H) as R. destruct (get_reg rs i) as [[k u] v].
    destruct (_ && _) eqn:E; [|discriminate]. intros X. assert (X' : rs' = (2 * k, u3, v3)%Z :: rs) by congruence. subst rs'. clear X.
    rewrite !Bool.andb_true_iff, !Z.ltb_lt, !Z.eqb_eq in E. destruct E as [[[[[E1 E2] E3] E4] E5] E6].
    constructor; auto. destruct R as [R|[Ru R]]; [lia|]. split; [lia|].
    apply num_of_mult in E4. apply num_of_mult in E5. apply num_of_mult in E6.
    rewrite emul_double by auto. pose proof (num_zero_iff u Ru) as Nu.
    assert (Nv : (num v : F) <> 0).
    { intros Z. apply Nu. apply (proj1 (mont_v0 Hp d An Bn Hm1 Hd HM _ (proj1 R))). exact Z. }
    push. change (num 3 : F) with (num (1 + 1 + 1) : F) in E4. change (num 2 : F) with (num (1 + 1) : F) in *. push.
    change (num 1 : F) with (1 : F) in *.
    assert (L : (num lam : F) = ((1 + 1 + 1) * (num u * num u) + (1 + 1) * An * num u + 1) / ((1 + 1) * Bn * num v)).
    { pose proof (num2_neq0 Hp d An Bn Hm1 Hd HM) as N2'. apply sub0 in E4. transitivity (((1 + 1) * (Bn * (num lam * num v))) / ((1 + 1) * Bn * num v)); [field; repeat split; auto|].
      rewrite <- E4. f_equal. ring. }
    pose proof (tangent_ok Hp d An Bn Hm1 Hd HM _ _ (onc_emul Hp d Hm1 Hd k G Gc) R Nu) as T.
    unfold m_tangent in T. cbn [mx my] in T. rewrite <- L in T.
    apply sub0 in E5. apply sub0 in E6.
    replace (mkM (num u3) (num v3) : MPoint p) with (mkM (Bn * (num lam * num lam) - An - (1 + 1) * num u) (num lam * ((1 + 1 + 1) * num u + An - Bn * (num lam * num lam)) - num v)); auto.
    f_equal; auto. rewrite <- E6, <- E5. ring.
  - pose proof (get_reg_ok rs i H) as R. destruct (get_reg rs i) as [[k u] v].
    pose proof (get_reg_ok rs j H) as R'. destruct (get_reg rs j) as [[k' u'] v'].
    destruct (_ && _) eqn:E; [|discriminate]. intros X. 
    assert (X' : rs' = (k + (if neg then - k' else k'), u3, v3)%Z :: rs) by congruence. subst rs'. clear X.
    rewrite !Bool.andb_true_iff, !Z.ltb_lt, !Z.eqb_eq, Bool.negb_true_iff, Z.eqb_neq in E.
    destruct E as [[[[[[[E1 E2] E3] E3'] EN] E4] E5] E6].
    constructor; auto. destruct R as [R|[Ru R]]; [lia|]. destruct R' as [R'|[Ru' R']]; [lia|]. split; [lia|].
    set (w := (if neg then - v' else v')%Z) in *.
    assert (Q : mrel An Bn (emul d (if neg then - k' else k')%Z G) (mkM (num u') (num w))).
    { unfold w. destruct neg; auto. unfold emul. rewrite (zmul_opp EG) by auto. rewrite num_opp. now apply mrel_neg. }
    clearbody w. clear R'. set (k2 := (if neg then - k' else k')%Z) in *. clearbody k2.
    unfold emul. rewrite (zmul_add EG) by auto. fold (emul d k G). fold (emul d k2 G).
    apply num_of_mult in E4. apply num_of_mult in E5. apply num_of_mult in E6.
    pose proof (num_zero_iff u' Ru') as Nu'. pose proof (num_inj_small u u' Ru Ru' EN) as Nuu.
    push.
    assert (Nd : num u' - num u <> (0 : F)) by (intros Z; apply Nuu; symmetry; now apply sub0).
    assert (L : (num lam : F) = (num w - num v) / (num u' - num u)).
    { apply sub0 in E4. rewrite <- E4. field; auto. }
    pose proof (chord_ok Hp d An Bn Hm1 Hd HM _ _ _ _ (onc_emul Hp d Hm1 Hd k G Gc) (onc_emul Hp d Hm1 Hd k2 G Gc) R Q Nu' Nuu) as T.
    unfold m_chord in T. cbn [mx my] in T. rewrite <- L in T.
    apply sub0 in E5. apply sub0 in E6.
    replace (mkM (num u3) (num v3) : MPoint p) with (mkM (Bn * (num lam * num lam) - An - num u - num u') (num lam * ((1 + 1) * num u + num u' + An - Bn * (num lam * num lam)) - num v)); auto.
    f_equal; auto. rewrite <- E6, <- E5. ring.
Qed.
Lemma mprog_ok ss : forall rs rs', Forall reg_ok rs -> mprog_run (Zpos p) A B ss rs = Some rs' -> Forall reg_ok rs'.
Proof.
  induction ss as [|s ss IH]; intros rs rs' H; cbn [mprog_run]; [congruence|].
  destruct (mstep_run _ _ _ s rs) as [r|] eqn:E; [|discriminate]. intros E'. eapply IH; [|exact E']. eapply mstep_ok; eauto.
Qed.
Theorem mprog_order l ss u v : mrel An Bn G (mkM (num u) (num v)) -> mprog_check (Zpos p) A B l ss u v = true ->
  emul d l G = e_zero.
Proof.
  intros R. unfold mprog_check. rewrite !Bool.andb_true_iff, !Z.ltb_lt. intros [[H1 H2] C].
  destruct (mprog_run _ _ _ _ _) as [rs|] eqn:E; [|discriminate].
  assert (Fr : Forall reg_ok rs).
  { eapply mprog_ok; [|exact E]. constructor; auto. split; [lia|]. unfold emul. now rewrite (zmul_1 EG). }
  destruct rs as [|[[k1 u1] v1] [|[[k2 u2] v2] rs]]; try discriminate.
  rewrite !Bool.andb_true_iff, !Z.eqb_eq in C. destruct C as [[C1 C2] C3].
  apply Forall_cons_iff in Fr. destruct Fr as [[_ R1] Fr]. apply Forall_cons_iff in Fr. destruct Fr as [[_ R2] _]. subst l u2.
  apply mrel_neg in R2. replace (- num v2 : F) with (num v1 : F) in R2.
  2: { replace v1 with (Zpos p - v2)%Z by lia. rewrite num_sub. replace (num (Zpos p) : F) with (0 : F); [ring|].
       symmetry. apply (num_of_mult _ 1). lia. }
  assert (K : emul d k1 G = eneg (emul d k2 G)).
  { rewrite <- (unmont_mrel Hp d An Bn Hm1 Hd HM _ _ (onc_emul Hp d Hm1 Hd k1 G Gc) R1).
    rewrite <- (unmont_mrel Hp d An Bn Hm1 Hd HM _ _ (onc_neg Hp d Hm1 Hd _ (onc_emul Hp d Hm1 Hd k2 G Gc)) R2). reflexivity. }
  unfold emul. rewrite (zmul_add EG) by auto. fold (emul d k1 G). fold (emul d k2 G). rewrite K.
  apply (gaddN _ _ _ _ EG). now apply (onc_emul Hp d Hm1 Hd).
Qed.
End Prog.
