(** The prime-order subgroup is cyclic, generated by [G], and the curve has
    exactly 8 l points. *)

From Verif Require Export CurveOrder.
Open Scope num_scope.

Lemma fibre_count {A B : Type} (eqA : forall x y : A, {x = y} + {x <> y}) (eqB : forall x y : B, {x = y} + {x <> y})
    (f : A -> B) (h : A -> A) (la : list A) (lb : list B) :
  NoDup la -> (forall x, In x la -> In (f x) lb) ->
  (forall x y, In x la -> In y la -> f x = f y -> y = x \/ y = h x) ->
  (length la <= 2 * length lb)%nat.
Proof.
  revert la. induction lb as [|b lb IH]; intros la Nd Hf Hh.
  - destruct la as [|x la]; [auto|]. destruct (Hf x); now left.
  - pose (l1 := filter (fun x => if eqB (f x) b then true else false) la).
    pose (l2 := filter (fun x => if eqB (f x) b then false else true) la).
    assert (E : length la = (length l1 + length l2)%nat).
    { unfold l1, l2. clear. induction la as [|x la IH]; auto. cbn. destruct (eqB (f x) b); cbn; lia. }
    assert (H2 : (length l2 <= 2 * length lb)%nat).
    { apply IH; unfold l2.
      - now apply NoDup_filter.
      - intros x Hx. apply filter_In in Hx. destruct Hx as [Hx E']. destruct (Hf x Hx) as [Eb|]; auto.
        destruct (eqB (f x) b); congruence.
      - intros x y Hx Hy. apply filter_In in Hx, Hy. now apply Hh. }
    assert (H1 : (length l1 <= 2)%nat).
    { destruct l1 as [|x l1'] eqn:El; [cbn; lia|].
      assert (Hin : forall y, In y (x :: l1') -> In y la /\ f y = b).
      { intros y Hy. rewrite <- El in Hy. apply filter_In in Hy. destruct Hy as [Hy E']. split; auto. destruct (eqB (f y) b); congruence. }
      change 2%nat with (length [x; h x]). apply NoDup_incl_length.
      - rewrite <- El. now apply NoDup_filter.
      - intros y Hy. destruct (Hin x (or_introl eq_refl)) as [X1 X2]. destruct (Hin y Hy) as [Y1 Y2].
        destruct (Hh x y X1 Y1) as [-> | ->]; [congruence|now left|right; now left]. }
    cbn [length]. lia.
Qed.

Section Card.
Context {p : positive} (Hp : prime (Zpos p)).
Notation F := (Num p).
Variable d : F.
Hypothesis Hm1 : is_square (- (1) : F).
Hypothesis Hd : ~ is_square d.
Notation onc := (on_curve d).
Notation "P +e Q" := (eadd d P Q) (at level 50, left associativity).
Implicit Types (P Q : EPoint p).
Set Default Proof Using "Type*".
Let EG := edwards_group Hp d Hm1 Hd.
Variables (l : Z) (G : EPoint p).
Hypothesis Hl : prime l.
Hypothesis Gc : onc G.
Hypothesis G0 : G <> e_zero.
Hypothesis Gl : emul d l G = e_zero.
Hypothesis L2 : (2 * Zpos p < l * l)%Z.
Let mul_add a b P (H : onc P) : emul d (a + b) P = emul d a P +e emul d b P := zmul_add EG a b P H.
Let mul_sub a b P (H : onc P) : emul d (a - b) P = emul d a P +e eneg (emul d b P) := zmul_sub EG a b P H.
Let mul_1 P (H : onc P) : emul d 1 P = P := zmul_1 EG P H.
Let mul_mod k P (H : onc P) (E : emul d l P = e_zero) : emul d (k mod l) P = emul d k P := zmul_mod EG l k P H E.
Let mul_distr k P Q (H : onc P) (H' : onc Q) : emul d k (P +e Q) = emul d k P +e emul d k Q := zmul_distr EG k P Q H H'.
Let mul_opp k P (H : onc P) : emul d k (eneg P) = eneg (emul d k P) := zmul_oppr EG k P H.
Let mul_zero k : emul d k e_zero = e_zero := zmul_zero EG k.
Let onc_mul := onc_emul Hp d Hm1 Hd.
Opaque emul.

Definition mults : list (EPoint p) := map (fun k => emul d (Z.of_nat k) G) (seq 0 (Z.to_nat l)).
Lemma mults_length : Z.of_nat (length mults) = l.
Proof. unfold mults. rewrite map_length, seq_length. destruct Hl. lia. Qed.

Lemma nodup_map_in {A B} (f : A -> B) (q : list A) : NoDup q ->
  (forall x y, In x q -> In y q -> f x = f y -> x = y) -> NoDup (map f q).
Proof using.
  induction 1 as [|x q Hx Hq IH]; cbn; intros Hi; [constructor|]. constructor.
  - intros Hin. apply in_map_iff in Hin. destruct Hin as [y [E Hy]]. assert (y = x) by (apply Hi; auto). now subst.
  - apply IH. intros a b Ha Hb. apply Hi; auto.
Qed.

Lemma nodup_prod {A B} (q : list A) (r : list B) : NoDup q -> NoDup r -> NoDup (list_prod q r).
Proof using.
  intros Hq Hr. induction Hq as [|x q Hx Hq IH]; cbn [list_prod]; [constructor|].
  assert (App : forall (X : Type) (q1 q2 : list X), NoDup q1 -> NoDup q2 -> (forall a, In a q1 -> ~ In a q2) -> NoDup (q1 ++ q2)).
  { intros X q1 q2 N1. induction N1 as [|a q1 Ha N1 IH1]; cbn; auto. intros N2 Hd'. constructor.
    - rewrite in_app_iff. intros [|]; [auto|]. apply (Hd' a); auto.
    - apply IH1; auto. }
  apply App; auto.
  - apply nodup_map_in; [auto|]. intros y z _ _ E. congruence.
  - intros [a b] Ha Hb. apply in_map_iff in Ha. destruct Ha as [y [Ey _]]. apply in_prod_iff in Hb. destruct Hb as [Hb _].
    assert (x = a) by congruence. now subst.
Qed.

Theorem subgroup_cyclic P : onc P -> emul d l P = e_zero -> exists k, (0 <= k < l)%Z /\ P = emul d k G.
Proof.
  intros HP EP. assert (L1 : (1 < l)%Z) by now destruct Hl.
  destruct (in_dec epoint_dec P mults) as [Hin|Hn].
  { unfold mults in Hin. apply in_map_iff in Hin. destruct Hin as [k [<- Hk]]. apply in_seq in Hk. exists (Z.of_nat k). split; [lia|reflexivity]. }
  exfalso.
  pose (f := fun ab : nat * nat => emul d (Z.of_nat (fst ab)) G +e emul d (Z.of_nat (snd ab)) P).
  pose (dom := list_prod (seq 0 (Z.to_nat l)) (seq 0 (Z.to_nat l))).
  assert (Dm : forall ab, In ab dom -> (0 <= Z.of_nat (fst ab) < l)%Z /\ (0 <= Z.of_nat (snd ab) < l)%Z).
  { intros [a b] H. unfold dom in H. apply in_prod_iff in H. rewrite !in_seq in H. cbn [fst snd]. lia. }
  (* the l * l combinations are distinct *)
  assert (Inj : forall x y, In x dom -> In y dom -> f x = f y -> x = y).
  { intros [a b] [a' b'] Hx Hy E. apply Dm in Hx, Hy. unfold f in E. cbn [fst snd] in *.
    assert (Ed : emul d (Z.of_nat a - Z.of_nat a') G = emul d (Z.of_nat b' - Z.of_nat b) P).
    { rewrite !mul_sub by auto. set (A1 := emul d (Z.of_nat a) G) in *. set (A2 := emul d (Z.of_nat a') G) in *.
      set (B1 := emul d (Z.of_nat b) P) in *. set (B2 := emul d (Z.of_nat b') P) in *.
      assert (onc A1 /\ onc A2 /\ onc B1 /\ onc B2) as [HA1 [HA2 [HB1 HB2]]] by (unfold A1, A2, B1, B2; auto).
      pose proof (onc_neg Hp d Hm1 Hd) as Hn'. pose proof (ok_add _ _ _ _ EG) as Ha'.
      apply (gsub_eq EG); auto. rewrite (goppD EG), (goppK EG) by auto.
      rewrite (eadd_comm Hp d Hm1 Hd (eneg B2) B1), (gaddACA EG) by auto.
      rewrite E, <- (goppD EG) by auto. apply (gaddNr EG); auto. }
    destruct (Z.eq_dec (Z.of_nat b) (Z.of_nat b')) as [Eb|Nb].
    - assert (Z0 : emul d (Z.of_nat a - Z.of_nat a') G = e_zero).
      { rewrite Ed. replace (Z.of_nat b' - Z.of_nat b)%Z with 0%Z by lia. reflexivity. }
      apply (emul_order_prime Hp d Hm1 Hd l) in Z0; auto. destruct Z0 as [q Hq].
      assert (q = 0)%Z by nia. f_equal; lia.
    - exfalso. apply Hn.
      set (m := (Z.of_nat b' - Z.of_nat b)%Z) in *.
      assert (Rm : rel_prime m l).
      { apply rel_prime_sym, prime_rel_prime; auto. intros [q Hq]. assert (q = 0)%Z by nia. lia. }
      apply rel_prime_bezout in Rm. destruct Rm as [u v Huv].
      assert (EPk : P = emul d (u * (Z.of_nat a - Z.of_nat a')) G).
      { rewrite (emul_mul Hp d Hm1 Hd), Ed, <- (emul_mul Hp d Hm1 Hd) by auto. fold m. rewrite <- (mul_1 P) at 1 by auto.
        rewrite <- Huv. rewrite mul_add by auto. rewrite (emul_mul Hp d Hm1 Hd v l P), EP, mul_zero by auto.
        apply (gadd0r EG); auto. }
      rewrite EPk, <- mul_mod by auto. unfold mults. apply in_map_iff.
      set (k := ((u * (Z.of_nat a - Z.of_nat a')) mod l)%Z).
      assert (0 <= k < l)%Z by (apply Z.mod_pos_bound; lia).
      exists (Z.to_nat k). split; [now rewrite Z2Nat.id by lia|]. apply in_seq. lia. }
  assert (Nd : NoDup (map f dom)).
  { apply nodup_map_in; auto. apply nodup_prod; apply seq_NoDup. }
  assert (Len : (length (map f dom) <= length (points d))%nat).
  { apply NoDup_incl_length; auto. intros Q HQ. apply in_map_iff in HQ. destruct HQ as [ab [<- _]].
    apply (points_ok Hp d Hm1 Hd). unfold f. apply (ok_add _ _ _ _ EG); auto. }
  rewrite map_length in Len. unfold dom in Len. rewrite prod_length, seq_length in Len.
  pose proof (points_length Hp d Hm1 Hd) as Pl. nia.
Qed.

Lemma double_fibre P Q : onc P -> onc Q -> P +e P = Q +e Q -> Q = P \/ Q = P +e T2.
Proof.
  intros HP HQ E. pose proof (onc_neg Hp d Hm1 Hd) as Hn'. pose proof (ok_add _ _ _ _ EG) as Ha'. pose proof (onc_T2 Hp d Hm1 Hd) as HT.
  assert (Z0 : (Q +e eneg P) +e (Q +e eneg P) = e_zero).
  { rewrite (gaddACA EG) by auto. rewrite <- E, <- (goppD EG) by auto. apply (gaddNr EG); auto. }
  assert (R : forall X, onc X -> Q +e eneg P = X -> Q = P +e X).
  { intros X HX <-. rewrite (eadd_comm Hp d Hm1 Hd P), (eadd_assoc Hp d Hm1 Hd), (gaddN _ _ _ _ EG), (gadd0r EG); auto. }
  apply (double_zero Hp d Hm1 Hd) in Z0; auto. destruct Z0 as [Z0|Z0].
  - left. apply R in Z0; [|apply (onc_zero Hp d Hm1 Hd)]. rewrite (gadd0r EG) in Z0; auto.
  - right. now apply R.
Qed.
Hypothesis Lo : Z.Odd l.
Hypothesis Ex : forall P, onc P -> emul d (8 * l) P = e_zero.
Variable W8 : EPoint p.
Hypothesis W8c : onc W8.
Hypothesis W8s : ey W8 * ey W8 + ex W8 * ex W8 = 0.
Theorem card_8l : Z.of_nat (length (points d)) = (8 * l)%Z.
Proof.
  set (n := Z.of_nat (length (points d))).
  assert (L1 : (1 < l)%Z) by now destruct Hl.
  assert (D1 : (l | n)%Z) by (apply (emul_order_prime Hp d Hm1 Hd l n G); auto; now apply (card_kills Hp d Hm1 Hd)).
  destruct (W8_order Hp d Hm1 Hd W8 W8c W8s) as [E8 E4].
  assert (D2 : (8 | n)%Z).
  { apply (emul_order_pow2 Hp d Hm1 Hd 2 n W8); auto; [lia| |now apply (card_kills Hp d Hm1 Hd)].
    change (2 ^ 2)%Z with 4%Z. rewrite E4. apply (T2_neq Hp d Hm1 Hd). }
  assert (D3 : (8 * l | n)%Z).
  { destruct D2 as [k Ek]. assert (Dk : (l | k)%Z).
    { apply Gauss with 8%Z; [destruct D1 as [j Ej]; exists j; lia|]. change 8%Z with (2 ^ 3)%Z.
      apply Zpow_facts.rel_prime_Zpower_r; [lia|].
      apply rel_prime_sym, prime_rel_prime; [exact prime_2|]. intros [j Ej]. destruct Lo as [m Em]. lia. }
    destruct Dk as [j Ej]. exists j. lia. }
  pose (img := fun q : list (EPoint p) => nodup epoint_dec (map (fun P => P +e P) q)).
  assert (St : forall q, NoDup q -> Forall onc q -> (length q <= 2 * length (img q))%nat /\ NoDup (img q) /\ Forall onc (img q) /\
                (forall Q, In Q (img q) -> exists P, In P q /\ Q = P +e P)).
  { intros q Nq Fq. assert (In' : forall Q, In Q (img q) -> exists P, In P q /\ Q = P +e P).
    { intros Q HQ. unfold img in HQ. apply nodup_In in HQ. apply in_map_iff in HQ. destruct HQ as [P [<- HP]]. eauto. }
    split; [|split; [apply NoDup_nodup|split; auto]].
    - apply (fibre_count epoint_dec epoint_dec (fun P => P +e P) (fun P => P +e T2)); auto.
      + intros P HP. unfold img. apply nodup_In. apply in_map_iff. eauto.
      + rewrite Forall_forall in Fq. intros P Q HP HQ. apply double_fibre; auto.
    - apply Forall_forall. intros Q HQ. destruct (In' Q HQ) as [P [HP ->]]. rewrite Forall_forall in Fq.
      apply (ok_add _ _ _ _ EG); auto. }
  assert (F0 : Forall onc (points d)) by (apply Forall_forall; intros P HP; now apply (points_ok Hp d Hm1 Hd)).
  destruct (St (points d)) as [S1 [N1 [F1 I1]]]; auto; [apply NoDup_nodup|].
  destruct (St (img (points d))) as [S2 [N2 [F2 I2]]]; auto.
  destruct (St (img (img (points d)))) as [S3 [N3 [F3 I3]]]; auto.
  set (q3 := img (img (img (points d)))) in *.
  assert (Len : (length q3 <= length mults)%nat).
  { apply NoDup_incl_length; auto. intros Q HQ.
    destruct (I3 Q HQ) as [Q2 [HQ2 EQ]]. destruct (I2 Q2 HQ2) as [Q1 [HQ1 EQ2]]. destruct (I1 Q1 HQ1) as [P [HP EQ1]].
    assert (CP : onc P) by (apply (points_ok Hp d Hm1 Hd); auto).
    assert (E : Q = emul d 8 P).
    { change 8%Z with (2 * (2 * 2))%Z. rewrite !(emul_double Hp d Hm1 Hd), !(emul_2 Hp d Hm1 Hd) by auto. congruence. }
    destruct (subgroup_cyclic Q) as [k [Hk ->]].
    - rewrite E. auto.
    - rewrite E, <- (emul_mul Hp d Hm1 Hd) by auto. rewrite Z.mul_comm. auto.
    - unfold mults. apply in_map_iff. exists (Z.to_nat k). split; [now rewrite Z2Nat.id by lia|]. apply in_seq. lia. }
  pose proof mults_length as Ml.
  assert (Hle : (n <= 8 * l)%Z) by (unfold n; lia).
  assert (Hpos : (0 < n)%Z).
  { unfold n. destruct (points d) eqn:Ep; [|cbn; lia]. exfalso. pose proof (proj1 (points_ok Hp d Hm1 Hd G) Gc) as X. now rewrite Ep in X. }
  destruct D3 as [k Ek]. assert (k = 1)%Z by nia. lia.
Qed.
Transparent emul.
End Card.
