(** The points accepted as BLS12-381 data form a group. *)

From Verif Require Export BlsGen CurveBN CurveBLS.
Open Scope Z_scope.

(** The data accepted for BLS12-381 points are those of a group: the points whose
    multiple by the group order, counted by repeated addition, is infinity. *)
Lemma wmul_infinity {K} (O : fops K) k : wmul O k None = None.
Proof. induction k as [k IH|k IH|]; cbn [wmul]; rewrite ?IH; reflexivity. Qed.
Lemma pt_on1 (a : Aff (Num bls_q)) : (ainf a = true \/ nmul (ay a) (ay a) = nadd (nmul (nmul (ax a) (ax a)) (ax a)) (num 4)) -> onw (fq bls_q) (num 4) (aff_pt a).
Proof. unfold aff_pt. destruct (ainf a); intros [E|E]; cbn; auto; discriminate. Qed.
Lemma pt_on2 (a : Aff (Fq2 bls_q)) : (ainf a = true \/ q2mul (ay a) (ay a) = q2add (q2mul (q2mul (ax a) (ax a)) (ax a)) (mkFq2 (num 4) (num 4))) -> onw (fq2 bls_q) (mkFq2 (num 4) (num 4)) (aff_pt a).
Proof. unfold aff_pt. destruct (ainf a); intros [E|E]; cbn; auto; discriminate. Qed.
Definition to_aff {K} (O : fops K) (P : option (K * K)) : Aff K := match P with Some (x, y) => mkAff x y false | None => mkAff (k0 O) (k0 O) true end.
Lemma to_aff_pt {K} (O : fops K) P : aff_pt (to_aff O P) = P.
Proof. now destruct P as [[]|]. Qed.
Lemma accept1 P : onw (fq bls_q) (num 4) P -> wmul (fq bls_q) bls_ord P = None -> exists d s, bls_g1 d = Ok s /\ aff_pt s = P.
Proof.
  intros HP HO. destruct (claim_C51_bls_roundtrip (to_aff (fq bls_q) P) (mkAff q2zero q2zero true)) as [[s [E [[S1 S2] _]]] _].
  - destruct P as [[x y]|]; [intros _; exact HP|discriminate].
  - discriminate.
  - now rewrite to_aff_pt.
  - now apply wmul_infinity.
  - exists (g1_data (to_aff (fq bls_q) P)), s. split; [exact E|]. destruct P as [[x y]|]; cbn [to_aff ainf ax ay] in *; unfold aff_pt; rewrite S1; [|reflexivity].
    destruct (S2 S1) as [-> ->]. reflexivity.
Qed.
Lemma accept2 P : onw (fq2 bls_q) (mkFq2 (num 4) (num 4)) P -> wmul (fq2 bls_q) bls_ord P = None -> exists d s, bls_g2 d = Ok s /\ aff_pt s = P.
Proof.
  intros HP HO. destruct (claim_C51_bls_roundtrip (mkAff n0 n0 true) (to_aff (fq2 bls_q) P)) as [_ [s [E [[S1 S2] _]]]].
  - discriminate.
  - destruct P as [[x y]|]; [intros _; exact HP|discriminate].
  - now apply wmul_infinity.
  - now rewrite to_aff_pt.
  - exists (g2_data (to_aff (fq2 bls_q) P)), s. split; [exact E|]. destruct P as [[x y]|]; cbn [to_aff ainf ax ay] in *; unfold aff_pt; rewrite S1; [|reflexivity].
    destruct (S2 S1) as [-> ->]. reflexivity.
Qed.
Lemma claim_C77_bls_subgroup :
  (forall d d' a a', bls_g1 d = Ok a -> bls_g1 d' = Ok a' ->
     Pos.iter (wadd (fq bls_q) (aff_pt a)) None bls_ord = None /\
     (exists e s, bls_g1 e = Ok s /\ aff_pt s = wadd (fq bls_q) (aff_pt a) (aff_pt a')) /\
     (exists e s, bls_g1 e = Ok s /\ aff_pt s = wneg (fq bls_q) (aff_pt a))) /\
  (forall d d' a a', bls_g2 d = Ok a -> bls_g2 d' = Ok a' ->
     Pos.iter (wadd (fq2 bls_q) (aff_pt a)) None bls_ord = None /\
     (exists e s, bls_g2 e = Ok s /\ aff_pt s = wadd (fq2 bls_q) (aff_pt a) (aff_pt a')) /\
     (exists e s, bls_g2 e = Ok s /\ aff_pt s = wneg (fq2 bls_q) (aff_pt a))).
Proof.
  destruct claim_C77_curves as [_ [_ [G1 G2]]]. destruct claim_C51_accepted as [_ [_ [A1 A2]]]. split.
  - intros d d' a a' E E'. destruct (A1 _ _ E) as [_ [O1 C1]]. destruct (A1 _ _ E') as [_ [O2 C2]]. apply pt_on1 in C1, C2.
    assert (CN : onw (fq bls_q) (num 4) (wneg (fq bls_q) (aff_pt a))) by (apply (wneg_on (fq bls_q) 1%num nneg finv (num_field prime_bls_q)); auto).
    split; [now rewrite <- (proj2 (proj2 (proj2 G1)))|]. split; apply accept1; auto.
    + now apply cg_on. + now apply (order_add _ _ G1). + now apply (order_neg _ _ G1).
  - intros d d' a a' E E'. destruct (A2 _ _ E) as [_ [O1 C1]]. destruct (A2 _ _ E') as [_ [O2 C2]]. apply pt_on2 in C1, C2.
    assert (CN : onw (fq2 bls_q) (mkFq2 (num 4) (num 4)) (wneg (fq2 bls_q) (aff_pt a))) by (apply (wneg_on (fq2 bls_q) q2one q2opp q2inv (q2_field prime_bls_q eq_refl eq_refl)); auto).
    split; [now rewrite <- (proj2 (proj2 (proj2 G2)))|]. split; apply accept2; auto.
    + now apply cg_on. + now apply (order_add _ _ G2). + now apply (order_neg _ _ G2).
Qed.
(** A point of order three, on the curve but outside the subgroup *)
Definition bls_three : option (Num bls_q * Num bls_q) := pt1 (0, 2).
Lemma bls_three_double : wadd (fq bls_q) bls_three bls_three = pt1 (0, Zpos bls_q - 2).
Proof.
  destruct claim_C77_curves as [_ [_ [G _]]]. rewrite <- (proj1 (proj2 (proj2 G))).
  apply (wd1_ok prime_bls_q eq_refl (W1 0 0 (Zpos bls_q - 2) 0 0 (-1))). vm_compute. reflexivity.
Qed.
Lemma bls_three_on : onw (fq bls_q) (num 4) bls_three.
Proof. cbn. apply num_eq. reflexivity. Qed.
Lemma bls_three_neg : wneg (fq bls_q) bls_three = pt1 (0, Zpos bls_q - 2).
Proof. unfold bls_three, pt1. cbn. apply f_equal, f_equal2; [reflexivity|]. apply num_eq. reflexivity. Qed.
Lemma bls_three_3 : Pos.iter (wadd (fq bls_q) bls_three) None 3 = None.
Proof.
  destruct claim_C77_curves as [_ [_ [G _]]].
  change 3%positive with (Pos.succ (Pos.succ 1)). rewrite !Pos.iter_succ. cbn [Pos.iter]. rewrite (cg_none (fq bls_q) (num 4) G), bls_three_double, <- bls_three_neg.
  apply (proj1 G bls_three (wneg (fq bls_q) bls_three) bls_three_on); [|reflexivity].
  apply (wneg_on (fq bls_q) 1%num nneg finv (num_field prime_bls_q)), bls_three_on.
Qed.
Lemma bls_three_cycle k : Pos.iter (wadd (fq bls_q) bls_three) None (3 * k) = None.
Proof.
  induction k as [|k IH] using Pos.peano_ind; [exact bls_three_3|].
  replace (3 * Pos.succ k)%positive with (3 + 3 * k)%positive by lia. rewrite Pos.iter_add, IH. exact bls_three_3.
Qed.
Lemma bls_three_order : wmul (fq bls_q) bls_ord bls_three = bls_three.
Proof.
  destruct claim_C77_curves as [_ [_ [G _]]]. rewrite (proj2 (proj2 (proj2 G))) by exact bls_three_on.
  change bls_ord with (Pos.succ (3 * 17478625058375396826482580169395321945896850833509212607534552899979527061504)).
  rewrite Pos.iter_succ, bls_three_cycle. reflexivity.
Qed.
(** The generator of the first group is accepted; the point (0, 2) of order three is not. *)
Lemma case_C77_bls_subgroup : bls_g1 (num bls_gx, num bls_gy) = Ok (mkAff (num bls_gx) (num bls_gy) false) /\
  nmul (num 2) (num 2) = nadd (nmul (nmul (num 0) (num 0)) (num 0)) (num 4 : Num bls_q) /\ bls_g1 (num 0, num 2) = Panic.
Proof.
  split; [|split].
  - destruct (claim_C51_bls_roundtrip (mkAff (num bls_gx) (num bls_gy) false) (mkAff q2zero q2zero true)) as [[s [E [_ S1]]] _].
    + intros _. cbn. apply num_eq. vm_compute. reflexivity.
    + discriminate.
    + exact bls_gen_order.
    + now apply wmul_infinity.
    + cbn [ainf] in S1. rewrite (S1 eq_refl) in E. exact E.
  - apply num_eq. reflexivity.
  - destruct (bls_g1 (num 0, num 2)) as [a|] eqn:E; [|reflexivity]. exfalso.
    destruct claim_C51_accepted as [_ [_ [A1 _]]]. destruct (A1 _ _ E) as [D [O1 _]].
    destruct a as [x y [|]]; unfold g1_data in D; cbn in D.
    + assert (Y : (n0 : Num bls_q) = num 2) by congruence. symmetry in Y. revert Y. apply num_nonzero. split; reflexivity.
    + assert (Some (x, y) = bls_three) as X by (unfold bls_three, pt1; cbn [fst snd]; congruence). unfold aff_pt in O1. cbn [ainf ax ay] in O1. rewrite X, bls_three_order in O1. discriminate.
Qed.
(** The order is that of the scalar field, a prime, and exactly the order of the generator. *)
Lemma iter_cycle {K} (O : fops K) P n k : Pos.iter (wadd O P) None n = None -> Pos.iter (wadd O P) None (k * n) = None.
Proof.
  intros E. induction k as [|k IH] using Pos.peano_ind; [exact E|].
  replace (Pos.succ k * n)%positive with (n + k * n)%positive by lia. rewrite Pos.iter_add, IH. exact E.
Qed.
Lemma iter_order {K} (O : fops K) P n : prime (Zpos n) -> wadd O P None <> None -> Pos.iter (wadd O P) None n = None ->
  forall k, Pos.iter (wadd O P) None k = None <-> (Zpos n | Zpos k).
Proof.
  intros Hn NP E k. split.
  - intros Ek. destruct (Zdivide_dec (Zpos n) (Zpos k)) as [D|D]; [exact D|]. exfalso. apply NP.
    assert (R := prime_rel_prime _ Hn _ D). destruct (rel_prime_bezout _ _ R) as [u v B].
    pose proof (prime_ge_2 _ Hn). assert (Hv := Z.mod_pos_bound v (Zpos n) ltac:(lia)). assert (Dv := Z.div_mod v (Zpos n) ltac:(lia)).
    assert (M : v mod Zpos n * Zpos k = 1 + (- u - v / Zpos n * Zpos k) * Zpos n) by (replace (v mod Zpos n) with (v - Zpos n * (v / Zpos n)) by lia; rewrite <- B; ring).
    destruct (v mod Zpos n) as [|w|w] eqn:Ew; [| |lia].
    { exfalso. assert (D1 : (Zpos n | 1)) by (exists (u + v / Zpos n * Zpos k); lia). apply Z.divide_1_r_nonneg in D1; lia. }
    assert (Ez : Pos.iter (wadd O P) None (w * k) = None) by now apply iter_cycle.
    destruct (- u - v / Zpos n * Zpos k) as [|z|z] eqn:Euz; [| |nia].
    + replace (w * k)%positive with 1%positive in Ez by lia. exact Ez.
    + replace (w * k)%positive with (1 + z * n)%positive in Ez by lia. rewrite Pos.iter_add, iter_cycle in Ez by exact E. exact Ez.
  - intros [j Hj]. destruct j as [|j|j]; try lia. replace k with (j * n)%positive by lia. now apply iter_cycle.
Qed.
Definition bls_generator : option (Num bls_q * Num bls_q) := Some
  (num 3685416753713387016781088315183077757961620795782546409894578378688607592378376318836054947676345821548104185464507,
   num 1339506544944476473020471379941921221584933875938349620426543736416511423956333506472724655353366534992391756441569).
Lemma claim_C77_order : bn_ord = bn_r /\ bls_ord = bls_r /\ Prime bn_ord /\ Prime bls_ord /\
  (exists a, bls_g1 (num 3685416753713387016781088315183077757961620795782546409894578378688607592378376318836054947676345821548104185464507,
    num 1339506544944476473020471379941921221584933875938349620426543736416511423956333506472724655353366534992391756441569) = Ok a /\ aff_pt a = bls_generator) /\
  forall k, Pos.iter (wadd (fq bls_q) bls_generator) None k = None <-> (Zpos bls_ord | Zpos k).
Proof.
  destruct claim_C77_curves as [_ [_ [G _]]].
  split; [reflexivity|]. split; [reflexivity|]. split; [exact bn_r_prime|]. split; [exact bls_r_prime|]. split.
  - eexists. split; [exact (proj1 case_C77_bls_subgroup)|]. reflexivity.
  - apply iter_order; [exact bls_r_prime|discriminate|]. rewrite <- (proj2 (proj2 (proj2 G))); [exact bls_gen_order|].
    cbn. apply num_eq. vm_compute. reflexivity.
Qed.
Lemma case_C77_order : bls_generator <> None /\ Pos.iter (wadd (fq bls_q) bls_generator) None 7 <> None.
Proof.
  split; [discriminate|]. intros E. apply (proj2 (proj2 (proj2 (proj2 (proj2 claim_C77_order))))) in E. destruct E as [j Hj]. unfold bls_ord in Hj. lia.
Qed.
