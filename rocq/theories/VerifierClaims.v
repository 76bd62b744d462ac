(** Claims about Groth16 verification, the compressed key and SizedVec: C53, C55, C58. *)

From Verif Require Export Verifier SizedVec CodecSpec.
From Coq Require Import Lia.
Open Scope Z_scope.

(* C53 *)
(** What a pairing is: [e1add] is a commutative group law on the points [ok1] with
    [e1mul] its multiples, [mul] a commutative group law on the values [okk], and
    the Miller loop followed by the final exponentiation is the product of a map [e]
    that is additive in its first argument. *)
Record is_pairing (E : Engine) (ok1 : eG1 E -> Prop) (ok2 : eG2 E -> Prop) (okk : eFk E -> Prop)
    (mul : eFk E -> eFk E -> eFk E) (inv : eFk E -> eFk E) (e : eG1 E -> eG2 E -> eFk E) : Prop := mk_pairing {
  ip_g1 : ab_group ok1 (e1add E) (e1zero E) (e1neg E);
  ip_mul : forall a k, ok1 a -> 0 <= k -> e1mul E a k = zmul (e1add E) (e1zero E) (e1neg E) k a;
  ip_gk : ab_group okk mul (ek_one E) inv;
  ip_eqb : forall x y, ek_eqb E x y = true <-> x = y;
  ip_ok : forall a b, ok1 a -> ok2 b -> okk (e a b);
  ip_lin : forall a b c, ok1 a -> ok1 b -> ok2 c -> e (e1add E a b) c = mul (e a c) (e b c);
  ip_final : forall l, Forall (fun ab => ok1 (fst ab) /\ ok2 (snd ab)) l ->
     e_final E (e_miller E l) = Some (fold_right mul (ek_one E) (map (fun ab => e (fst ab) (snd ab)) l)) }.

(** All the points of a key and of a proof are points of the groups. *)
Definition key_ok {G1 G2} (ok1 : G1 -> Prop) (ok2 : G2 -> Prop) (vk : VK G1 G2) : Prop :=
  ok1 (vk_alpha vk) /\ ok2 (vk_beta vk) /\ ok2 (vk_gamma vk) /\ ok2 (vk_delta vk) /\ Forall ok1 (vk_ic vk).
Definition proof_ok {G1 G2} (ok1 : G1 -> Prop) (ok2 : G2 -> Prop) (pf : Proof_ G1 G2) : Prop :=
  ok1 (pf_a pf) /\ ok2 (pf_b pf) /\ ok1 (pf_c pf).

Section Pairing.
Context {E : Engine} {ok1 : eG1 E -> Prop} {ok2 : eG2 E -> Prop} {okk : eFk E -> Prop}
  {mul : eFk E -> eFk E -> eFk E} {inv : eFk E -> eFk E} {e : eG1 E -> eG2 E -> eFk E}
  (HP : is_pairing E ok1 ok2 okk mul inv e).
Notation one := (ek_one E).
Notation zm := (zmul (e1add E) (e1zero E) (e1neg E)).
Let G1 := ip_g1 _ _ _ _ _ _ _ HP.
Let GK := ip_gk _ _ _ _ _ _ _ HP.

Lemma e_zero b : ok2 b -> e (e1zero E) b = one.
Proof using HP.
  intros H. assert (Z : ok1 (e1zero E)) by apply (ok_zero _ _ _ _ G1).
  assert (K : okk (e (e1zero E) b)) by now apply (ip_ok _ _ _ _ _ _ _ HP).
  apply (gcancel GK (e (e1zero E) b)); auto; [apply (ok_zero _ _ _ _ GK)|].
  rewrite <- (ip_lin _ _ _ _ _ _ _ HP) by auto. rewrite (gadd0 _ _ _ _ G1), (gadd0r GK) by auto. reflexivity.
Qed.
Lemma e_neg a b : ok1 a -> ok2 b -> mul (e (e1neg E a) b) (e a b) = one.
Proof using HP.
  intros A B. rewrite <- (ip_lin _ _ _ _ _ _ _ HP) by (auto; apply (ok_opp _ _ _ _ G1); auto).
  rewrite (gaddN _ _ _ _ G1) by auto. now apply e_zero.
Qed.
Lemma e_zmul k a b : ok1 a -> ok2 b -> e (zm k a) b = zmul mul one inv k (e a b).
Proof using HP.
  intros A B. assert (K : okk (e a b)) by now apply (ip_ok _ _ _ _ _ _ _ HP).
  assert (P : forall n, e (zm (Z.of_nat n) a) b = zmul mul one inv (Z.of_nat n) (e a b)).
  { induction n as [|n IH]; [now apply e_zero|]. rewrite Nat2Z.inj_succ, (zmul_succ G1), (zmul_succ GK), (ip_lin _ _ _ _ _ _ _ HP), IH; auto. now apply (ok_zmul G1). }
  destruct (Z.le_gt_cases 0 k) as [H|H]; [rewrite <- (Z2Nat.id k H); apply P|].
  replace k with (- (Z.of_nat (Z.to_nat (- k)))) by lia. set (n := Z.of_nat (Z.to_nat (- k))).
  rewrite (zmul_opp G1), (zmul_opp GK) by auto. symmetry.
  assert (O1 : ok1 (zm n a)) by now apply (ok_zmul G1).
  rewrite <- (goppK GK (e (e1neg E (zm n a)) b)) by (apply (ip_ok _ _ _ _ _ _ _ HP); auto; apply (ok_opp _ _ _ _ G1); auto). f_equal.
  apply (gopp_unique GK); [apply (ip_ok _ _ _ _ _ _ _ HP); auto; apply (ok_opp _ _ _ _ G1); auto|now apply (ok_zmul GK)|].
  unfold n. rewrite <- P. apply e_neg; auto.
Qed.

(** The sum of the key points weighted by the inputs. *)
Definition weighted {r} (ic0 : eG1 E) (inputs : list (Num r)) (ics : list (eG1 E)) : eG1 E :=
  e1add E ic0 (gsum (add := e1add E) (zero := e1zero E) (map (fun xb => zm (nval (fst xb)) (snd xb)) (combine inputs ics))).
Lemma acc_weighted {r} (inputs : list (Num r)) : forall ics ic0, ok1 ic0 -> Forall ok1 ics ->
  fold_left (fun acc ib => e1add E acc (e1mul E (snd ib) (nval (fst ib)))) (combine inputs ics) ic0 = weighted ic0 inputs ics /\
  ok1 (weighted ic0 inputs ics).
Proof using HP.
  unfold weighted. induction inputs as [|x xs IH]; intros ics ic0 H0 H.
  - cbn. now rewrite (gadd0r G1).
  - destruct ics as [|b bs]; [cbn; now rewrite (gadd0r G1)|]. inversion H as [|? ? Hb Hbs]; subst. cbn [combine fold_left map gsum fst snd fold_right].
    pose proof (nval_range x) as R. rewrite (ip_mul _ _ _ _ _ _ _ HP) by (auto; lia).
    assert (Ob : ok1 (zm (nval x) b)) by now apply (ok_zmul G1).
    assert (Oc : ok1 (e1add E ic0 (zm (nval x) b))) by now apply (ok_add _ _ _ _ G1).
    destruct (IH bs _ Oc Hbs) as [E1 E2]. unfold gsum in *.
    assert (Os : ok1 (fold_right (e1add E) (e1zero E) (map (fun xb => zm (nval (fst xb)) (snd xb)) (combine xs bs)))).
    { apply (ok_gsum G1). clear -Hbs HP G1. revert bs Hbs. induction xs as [|x xs IH]; intros [|b bs] H; cbn; constructor.
      - inversion H; subst. now apply (ok_zmul G1). - inversion H; subst. now apply IH. }
    rewrite E1. rewrite (gaddA _ _ _ _ G1) in * by auto. auto.
Qed.

Lemma verify_spec {r} (vk : VK (eG1 E) (eG2 E)) pf (inputs : list (Num r)) : key_ok ok1 ok2 vk -> proof_ok ok1 ok2 pf ->
  if Nat.eqb (length inputs + 1) (length (vk_ic vk)) then
    exists ic0 ics b, vk_ic vk = ic0 :: ics /\ verify E vk pf inputs = Ok (Some b) /\
     (b = true <-> e (pf_a pf) (pf_b pf) = mul (e (vk_alpha vk) (vk_beta vk)) (mul (e (weighted ic0 inputs ics) (vk_gamma vk)) (e (pf_c pf) (vk_delta vk))))
  else verify E vk pf inputs = Ok None.
Proof using HP.
  intros [Ka [Kb [Kg [Kd Kic]]]] [Pa [Pb Pc]]. unfold verify. destruct (Nat.eqb_spec (length inputs + 1) (length (vk_ic vk))) as [L|L]; cbn [negb]; [|reflexivity].
  destruct (vk_ic vk) as [|ic0 ics]; [cbn in L; lia|]. inversion Kic as [|? ? K0 Ks]; subst.
  destruct (acc_weighted inputs ics ic0 K0 Ks) as [E1 E2]. exists ic0, ics. cbn [nth_error unwrap rbind skipn].
  rewrite (ip_final _ _ _ _ _ _ _ HP).
  2:{ rewrite E1. repeat constructor; cbn [fst snd]; auto. apply (ok_opp _ _ _ _ G1); auto. }
  cbn [unwrap rbind map fst snd fold_right]. eexists. split; [reflexivity|]. split; [reflexivity|]. rewrite (ip_eqb _ _ _ _ _ _ _ HP), E1.
  set (X := e (pf_a pf) (pf_b pf)). set (A := e (vk_alpha vk) (vk_beta vk)). set (B := e (weighted _ _ _) _). set (C := e (pf_c pf) _). set (N := e (e1neg E (pf_a pf)) (pf_b pf)).
  assert (OX : okk X) by now apply (ip_ok _ _ _ _ _ _ _ HP). assert (OA : okk A) by now apply (ip_ok _ _ _ _ _ _ _ HP).
  assert (OB : okk B) by now apply (ip_ok _ _ _ _ _ _ _ HP). assert (OC : okk C) by now apply (ip_ok _ _ _ _ _ _ _ HP).
  assert (ON : okk N) by (apply (ip_ok _ _ _ _ _ _ _ HP); auto; apply (ok_opp _ _ _ _ G1); auto).
  assert (NX : mul N X = one) by now apply e_neg.
  rewrite (gadd0r GK C) by auto. assert (OR : okk (mul A (mul B C))) by (apply (ok_add _ _ _ _ GK); auto; apply (ok_add _ _ _ _ GK); auto).
  split; intros H.
  - apply (gcancel GK N); auto. congruence.
  - rewrite <- H. exact NX.
Qed.
Lemma e_weighted {r} (inputs : list (Num r)) : forall ics ic0 c, ok1 ic0 -> Forall ok1 ics -> ok2 c ->
  e (weighted ic0 inputs ics) c = mul (e ic0 c) (gsum (add := mul) (zero := one) (map (fun xb => zmul mul one inv (nval (fst xb)) (e (snd xb) c)) (combine inputs ics))).
Proof using HP.
  unfold weighted. induction inputs as [|x xs IH]; intros ics ic0 c H0 H Hc.
  - cbn. rewrite (gadd0r G1), (gadd0r GK); auto. now apply (ip_ok _ _ _ _ _ _ _ HP).
  - destruct ics as [|b bs]; [cbn; rewrite (gadd0r G1), (gadd0r GK); auto; now apply (ip_ok _ _ _ _ _ _ _ HP)|].
    inversion H as [|? ? Hb Hbs]; subst. cbn [combine map gsum fst snd fold_right]. unfold gsum in *.
    assert (Ob : ok1 (zm (nval x) b)) by now apply (ok_zmul G1).
    assert (Oc : ok1 (e1add E ic0 (zm (nval x) b))) by now apply (ok_add _ _ _ _ G1).
    assert (Os : ok1 (fold_right (e1add E) (e1zero E) (map (fun xb => zm (nval (fst xb)) (snd xb)) (combine xs bs)))).
    { apply (ok_gsum G1). clear -Hbs HP G1. revert bs Hbs. induction xs as [|y ys IH]; intros [|b bs] H; cbn; constructor.
      - inversion H; subst. now apply (ok_zmul G1). - inversion H; subst. now apply IH. }
    assert (Ok : okk (fold_right mul one (map (fun xb => zmul mul one inv (nval (fst xb)) (e (snd xb) c)) (combine xs bs)))).
    { apply (ok_gsum GK). clear -Hbs HP GK Hc. revert bs Hbs. induction xs as [|y ys IH]; intros [|b bs] H; cbn; constructor.
      - inversion H; subst. apply (ok_zmul GK). now apply (ip_ok _ _ _ _ _ _ _ HP). - inversion H; subst. now apply IH. }
    rewrite <- (gaddA _ _ _ _ G1) by auto. rewrite (IH bs) by auto. rewrite (ip_lin _ _ _ _ _ _ _ HP), e_zmul by auto.
    apply (gaddA _ _ _ _ GK); auto; [|apply (ok_zmul GK)]; now apply (ip_ok _ _ _ _ _ _ _ HP).
Qed.
End Pairing.

(** [verify] is Ok true exactly when e(A, B) = e(alpha, beta) e(ic0 + sum x_i ic_i, gamma) e(C, delta),
    Ok false when the lengths match and it does not, an error exactly when they do not
    match; it never panics. *)
Lemma claim_C53_verify : forall (E : Engine) ok1 ok2 okk mul inv e, is_pairing E ok1 ok2 okk mul inv e ->
  forall (r : positive) (vk : VK (eG1 E) (eG2 E)) (pf : Proof_ (eG1 E) (eG2 E)) (inputs : list (Num r)),
  key_ok ok1 ok2 vk -> proof_ok ok1 ok2 pf ->
  let acc := match vk_ic vk with
    | [] => e1zero E
    | ic0 :: ics => fold_right (e1add E) (e1zero E) (ic0 :: map (fun xb => zmul (e1add E) (e1zero E) (e1neg E) (nval (fst xb)) (snd xb)) (combine inputs ics))
    end in
  let equation := e (pf_a pf) (pf_b pf) = mul (e (vk_alpha vk) (vk_beta vk)) (mul (e acc (vk_gamma vk)) (e (pf_c pf) (vk_delta vk))) in
  (verify E vk pf inputs = Ok None <-> (length inputs + 1)%nat <> length (vk_ic vk)) /\
  ((length inputs + 1)%nat = length (vk_ic vk) -> 
    (verify E vk pf inputs = Ok (Some true) <-> equation) /\ (verify E vk pf inputs = Ok (Some false) <-> ~ equation)).
Proof.
  intros E ok1 ok2 okk mul inv e HP r vk pf inputs HK HF acc equation.
  pose proof (verify_spec HP vk pf inputs HK HF) as S. destruct (Nat.eqb_spec (length inputs + 1) (length (vk_ic vk))) as [L|L].
  - destruct S as [ic0 [ics [b [Eic [EV HB]]]]]. split; [split; [rewrite EV; discriminate|contradiction]|]. intros _.
    assert (HE : b = true <-> equation). { rewrite HB. unfold equation, acc. rewrite Eic. reflexivity. }
    rewrite EV. split.
    + rewrite <- HE. split; [intros X; congruence|intros ->; reflexivity].
    + rewrite <- HE. split; [intros X Y; congruence|]. intros X. destruct b; [exfalso; auto|reflexivity].
  - split; [split; auto|]. intros C. contradiction.
Qed.
(** By additivity the middle factor is e(ic0, gamma) times the product of the e(ic_i, gamma)^x_i. *)
Lemma claim_C53_expanded : forall (E : Engine) ok1 ok2 okk mul inv e, is_pairing E ok1 ok2 okk mul inv e ->
  forall (r : positive) (vk : VK (eG1 E) (eG2 E)) (pf : Proof_ (eG1 E) (eG2 E)) (inputs : list (Num r)) ic0 ics,
  key_ok ok1 ok2 vk -> proof_ok ok1 ok2 pf -> vk_ic vk = ic0 :: ics -> length inputs = length ics ->
  (verify E vk pf inputs = Ok (Some true) <->
   e (pf_a pf) (pf_b pf) = mul (e (vk_alpha vk) (vk_beta vk)) (mul (mul (e ic0 (vk_gamma vk))
     (fold_right mul (ek_one E) (map (fun xb => zmul mul (ek_one E) inv (nval (fst xb)) (e (snd xb) (vk_gamma vk))) (combine inputs ics))))
     (e (pf_c pf) (vk_delta vk)))).
Proof.
  intros E ok1 ok2 okk mul inv e HP r vk pf inputs ic0 ics HK HF Eic L.
  pose proof (verify_spec HP vk pf inputs HK HF) as S. rewrite Eic in S. cbn [length] in S.
  replace (Nat.eqb (length inputs + 1) (Datatypes.S (length ics))) with true in S by (symmetry; apply Nat.eqb_eq; lia).
  destruct S as [i0 [is [b [E1 [EV HB]]]]]. assert (i0 = ic0 /\ is = ics) as [-> ->] by (split; congruence).
  destruct HK as [_ [_ [Kg [_ Kic]]]]. rewrite Eic in Kic. inversion Kic as [|? ? K0 Ks]; subst.
  rewrite (e_weighted HP) in HB by auto. rewrite EV, <- HB. split; [congruence|intros ->; reflexivity].
Qed.
(** If the final exponentiation gives nothing, [verify] panics. *)
Lemma claim_C53_panic : forall (E : Engine) (r : positive) (vk : VK (eG1 E) (eG2 E)) (pf : Proof_ (eG1 E) (eG2 E)) (inputs : list (Num r)),
  (forall f, e_final E f = None) -> (length inputs + 1)%nat = length (vk_ic vk) -> verify E vk pf inputs = Panic.
Proof.
  intros E r vk pf inputs H L. unfold verify. rewrite (proj2 (Nat.eqb_eq _ _) L). cbn [negb].
  destruct (vk_ic vk); [cbn in L; lia|]. cbn [nth_error unwrap rbind]. rewrite H. reflexivity.
Qed.
(** A pairing: the multiplication of the field of 7 elements, written additively. *)
Definition toy_engine : Engine := mkEngine (Num 7) (Num 7) (Num 7) nadd n0 nneg (fun a k => nmul (num k) a)
  (fun l => fold_right (fun ab s => nadd (nmul (fst ab) (snd ab)) s) n0 l) Some n0 neqb.
Lemma toy_pairing : is_pairing toy_engine (fun _ => True) (fun _ => True) (fun _ => True) nadd nneg nmul.
Proof.
  pose proof (@num_ring 7) as R.
  assert (G : ab_group (fun _ : Num 7 => True) nadd n0 nneg).
  { constructor; auto; intros.
    - symmetry. apply (Radd_assoc R). - apply (Radd_comm R). - apply (Radd_0_l R).
    - rewrite (Radd_comm R). apply (Ropp_def R). }
  constructor; cbn -[num]; auto.
  - intros a k _ Hk. rewrite <- (Z2Nat.id k Hk). induction (Z.to_nat k) as [|n IH].
    + apply neqb_eq. unfold neqb, nmul, zmul, n0. rewrite !nval_num. cbn. reflexivity.
    + rewrite Nat2Z.inj_succ, (zmul_succ G), <- IH by auto. unfold nadd, nmul. rewrite !nval_num. apply num_eq_mod.
      rewrite !Zmult_mod_idemp_l, Zplus_mod_idemp_r. f_equal. lia.
  - intros. apply neqb_eq.
  - intros. apply (Rdistr_l R).
  - intros l _. f_equal. induction l as [|x l IH]; cbn -[num nadd nmul]; [reflexivity|]. now rewrite IH.
Qed.
Lemma case_C53_verify :
  let vk := mkVK (num 2 : eG1 toy_engine) (num 3 : eG2 toy_engine) (num 5 : eG2 toy_engine) (num 4 : eG2 toy_engine) [num 1; num 6] in
  let inputs := [num 10 : Num 11] in
  key_ok (fun _ => True) (fun _ => True) vk /\
  verify toy_engine vk (mkPf (num 3 : eG1 toy_engine) (num 1 : eG2 toy_engine) (num 1 : eG1 toy_engine)) inputs = Ok (Some false) /\
  verify toy_engine vk (mkPf (num 1 : eG1 toy_engine) (num 1 : eG2 toy_engine) (num 3 : eG1 toy_engine)) inputs = Ok (Some true) /\
  verify toy_engine vk (mkPf (num 1 : eG1 toy_engine) (num 1 : eG2 toy_engine) (num 3 : eG1 toy_engine)) ([] : list (Num 11)) = Ok None.
Proof.
  split; [repeat (constructor; auto)|]. vm_compute. auto.
Qed.

(* C55 *)
(** The encodings of points: fixed positive size, and decoding gives the point back. *)
Definition codec_ok {G} (k : PointCodec G) : Prop :=
  (0 < pc_size k)%nat /\ (forall g, length (pc_compress k g) = pc_size k) /\ (forall g, pc_affine k (pc_compress k g) = Some g).
(** Decoding accepts nothing but encodings. *)
Definition codec_strict {G} (k : PointCodec G) : Prop := forall b g, pc_affine k b = Some g -> b = pc_compress k g.
Definition finite_key {G1 G2} (k1 : PointCodec G1) (k2 : PointCodec G2) (vk : VK G1 G2) : Prop :=
  pc_is_zero k1 (vk_alpha vk) = false /\ pc_is_zero k2 (vk_beta vk) = false /\ pc_is_zero k2 (vk_gamma vk) = false /\
  pc_is_zero k2 (vk_delta vk) = false /\ Forall (fun g => pc_is_zero k1 g = false) (vk_ic vk).

Section Codec.
Context {G1 G2 : Type} (k1 : PointCodec G1) (k2 : PointCodec G2).
Lemma read_point_app {G} (k : PointCodec G) g rest : codec_ok k ->
  read_point k (pc_compress k g ++ rest) = if pc_is_zero k g then None else Some (g, rest).
Proof.
  intros [_ [L R]]. unfold read_point. pose proof (take_bytes_app (pc_compress k g) rest) as T. rewrite L in T. rewrite T.
  unfold decode. rewrite R. destruct (pc_is_zero k g); reflexivity.
Qed.
Lemma read_ic_app : codec_ok k1 -> forall l fuel tail, (length tail < pc_size k1)%nat -> (length l < fuel)%nat ->
  read_ic k1 fuel (concat (map (pc_compress k1) l) ++ tail) = if existsb (pc_is_zero k1) l then None else Some l.
Proof.
  intros [P [L R]]. induction l as [|g l IH]; intros fuel tail HT HF.
  - destruct fuel as [|f]; [lia|]. cbn. rewrite (proj2 (take_bytes_none _ _)) by auto. reflexivity.
  - destruct fuel as [|f]; [cbn in HF; lia|]. cbn [map concat read_ic existsb length] in *. rewrite <- app_assoc.
    pose proof (take_bytes_app (pc_compress k1 g) (concat (map (pc_compress k1) l) ++ tail)) as T. rewrite L in T. rewrite T.
    unfold decode. rewrite R. destruct (pc_is_zero k1 g); [reflexivity|]. cbn [orb]. rewrite IH by (auto; lia). destruct (existsb _ _); reflexivity.
Qed.
Lemma ic_length l : codec_ok k1 -> (length l <= length (concat (map (pc_compress k1) l)))%nat.
Proof. intros [P [L _]]. induction l as [|g l IH]; cbn [map concat length]; [lia|]. rewrite app_length, L. lia. Qed.
Lemma finite_dec (l : list G1) : existsb (pc_is_zero k1) l = false <-> Forall (fun g => pc_is_zero k1 g = false) l.
Proof.
  induction l as [|g l IH]; cbn [existsb]; [split; auto|]. rewrite orb_false_iff, IH. split; [intros []; constructor; auto|]. intros H; inversion H; auto.
Qed.
Lemma read_write_spec vk tail : codec_ok k1 -> codec_ok k2 -> (length tail < pc_size k1)%nat ->
  (finite_key k1 k2 vk -> tvk_read k1 k2 (tvk_write k1 k2 vk ++ tail) = Some vk) /\
  (~ finite_key k1 k2 vk -> tvk_read k1 k2 (tvk_write k1 k2 vk ++ tail) = None).
Proof.
  intros H1 H2 HT. unfold tvk_write, tvk_read, finite_key. rewrite <- !app_assoc, read_point_app by auto.
  destruct (pc_is_zero k1 (vk_alpha vk)); [split; [intuition discriminate|auto]|]. rewrite read_point_app by auto.
  destruct (pc_is_zero k2 (vk_beta vk)); [split; [intuition discriminate|auto]|]. rewrite read_point_app by auto.
  destruct (pc_is_zero k2 (vk_gamma vk)); [split; [intuition discriminate|auto]|]. rewrite read_point_app by auto.
  destruct (pc_is_zero k2 (vk_delta vk)); [split; [intuition discriminate|auto]|].
  rewrite read_ic_app; auto.
  2:{ pose proof (ic_length (vk_ic vk) H1). rewrite app_length. lia. }
  destruct (existsb (pc_is_zero k1) (vk_ic vk)) eqn:E; cbn [option_map]; split; intros F; auto.
  - exfalso. destruct F as [_ [_ [_ [_ F]]]]. apply finite_dec in F. congruence.
  - destruct vk; reflexivity.
  - exfalso. apply F. apply finite_dec in E. auto.
Qed.
Lemma read_point_some {G} (k : PointCodec G) buf g rest : read_point k buf = Some (g, rest) ->
  pc_is_zero k g = false /\ exists b, buf = b ++ rest /\ length b = pc_size k /\ pc_affine k b = Some g.
Proof.
  unfold read_point. destruct (take_bytes (pc_size k) buf) as [[b r]|] eqn:E; [|discriminate]. apply take_bytes_some in E. destruct E as [-> L].
  unfold decode. destruct (pc_affine k b) as [x|] eqn:A; [|discriminate]. destruct (pc_is_zero k x) eqn:Z; [discriminate|]. cbn.
  intros H. assert (x = g /\ r = rest) as [-> ->] by (split; congruence). split; auto. exists b. auto.
Qed.
Lemma read_ic_some : (0 < pc_size k1)%nat -> codec_strict k1 -> forall fuel buf l, (length buf < fuel)%nat -> read_ic k1 fuel buf = Some l ->
  Forall (fun g => pc_is_zero k1 g = false) l /\ exists tail, buf = concat (map (pc_compress k1) l) ++ tail /\ (length tail < pc_size k1)%nat.
Proof.
  intros P ST. induction fuel as [|f IH]; intros buf l HF; [lia|]. cbn [read_ic].
  destruct (take_bytes (pc_size k1) buf) as [[b r]|] eqn:E.
  - apply take_bytes_some in E. destruct E as [-> L]. unfold decode. destruct (pc_affine k1 b) as [x|] eqn:A; [|discriminate].
    destruct (pc_is_zero k1 x) eqn:Z; [discriminate|]. destruct (read_ic k1 f r) as [l'|] eqn:E2; [|discriminate]. cbn.
    intros H. assert (l = x :: l') as -> by congruence. rewrite app_length in HF.
    destruct (IH r l') as [F [tail [-> HT]]]; auto; [lia|]. split; [constructor; auto|]. exists tail. cbn [map concat].
    rewrite <- app_assoc, (ST _ _ A). auto.
  - intros H. assert (l = []) as -> by congruence. split; [constructor|]. exists buf. split; [reflexivity|].
    destruct (Nat.lt_ge_cases (length buf) (pc_size k1)) as [?|G]; auto. exfalso. rewrite <- (firstn_skipn (pc_size k1) buf) in E.
    pose proof (take_bytes_app (firstn (pc_size k1) buf) (skipn (pc_size k1) buf)) as T. rewrite firstn_length_le in T by lia. congruence.
Qed.
End Codec.

(** [read] gives back every key without points at infinity, and so it does when fewer
    bytes than a point follow; it rejects every key with a point at infinity. *)
Lemma claim_C55_read_write : forall (G1 G2 : Type) (k1 : PointCodec G1) (k2 : PointCodec G2) (vk : VK G1 G2) (tail : list Z),
  codec_ok k1 -> codec_ok k2 -> (length tail < pc_size k1)%nat ->
  (finite_key k1 k2 vk -> tvk_read k1 k2 (tvk_write k1 k2 vk) = Some vk /\ tvk_read k1 k2 (tvk_write k1 k2 vk ++ tail) = Some vk) /\
  (~ finite_key k1 k2 vk -> tvk_read k1 k2 (tvk_write k1 k2 vk) = None /\ tvk_read k1 k2 (tvk_write k1 k2 vk ++ tail) = None).
Proof.
  intros G1 G2 k1 k2 vk tail H1 H2 HT. destruct (read_write_spec k1 k2 vk tail H1 H2 HT) as [A B].
  assert (HN : (length (@nil Z) < pc_size k1)%nat) by (destruct H1; cbn; lia).
  destruct (read_write_spec k1 k2 vk [] H1 H2 HN) as [A' B']. rewrite app_nil_r in A', B'. split; auto.
Qed.
(** Whatever is read is a key without points at infinity, written, and fewer bytes than
    a point (if decoding points is strict). *)
Lemma claim_C55_read_exact : forall (G1 G2 : Type) (k1 : PointCodec G1) (k2 : PointCodec G2) (buf : list Z) (vk : VK G1 G2),
  (0 < pc_size k1)%nat -> codec_strict k1 -> codec_strict k2 -> tvk_read k1 k2 buf = Some vk ->
  finite_key k1 k2 vk /\ exists tail, buf = tvk_write k1 k2 vk ++ tail /\ (length tail < pc_size k1)%nat.
Proof.
  intros G1 G2 k1 k2 buf vk P S1 S2 E. unfold tvk_read in E.
  destruct (read_point k1 buf) as [[a b1]|] eqn:E1; [|discriminate]. destruct (read_point k2 b1) as [[b b2]|] eqn:E2; [|discriminate].
  destruct (read_point k2 b2) as [[c b3]|] eqn:E3; [|discriminate]. destruct (read_point k2 b3) as [[d b4]|] eqn:E4; [|discriminate].
  destruct (read_ic k1 (S (length b4)) b4) as [l|] eqn:E5; [|discriminate]. cbn [option_map] in E. assert (vk = mkVK a b c d l) as -> by congruence.
  apply read_point_some in E1, E2, E3, E4. destruct E1 as [Za [x1 [-> [L1 A1]]]]. destruct E2 as [Zb [x2 [-> [L2 A2]]]].
  destruct E3 as [Zc [x3 [-> [L3 A3]]]]. destruct E4 as [Zd [x4 [-> [L4 A4]]]].
  apply read_ic_some in E5; auto. destruct E5 as [F [tail [-> HT]]]. split; [unfold finite_key; cbn; auto|].
  exists tail. unfold tvk_write. cbn [vk_alpha vk_beta vk_gamma vk_delta vk_ic]. rewrite <- !app_assoc.
  rewrite (S1 _ _ A1), (S2 _ _ A2), (S2 _ _ A3), (S2 _ _ A4). auto.
Qed.
(** Less than the four leading points is an error. *)
Lemma claim_C55_short : forall (G1 G2 : Type) (k1 : PointCodec G1) (k2 : PointCodec G2) (buf : list Z),
  (length buf < pc_size k1 + 3 * pc_size k2)%nat -> tvk_read k1 k2 buf = None.
Proof.
  intros G1 G2 k1 k2 buf L. unfold tvk_read.
  destruct (read_point k1 buf) as [[a b1]|] eqn:E1; [|reflexivity]. destruct (read_point k2 b1) as [[b b2]|] eqn:E2; [|reflexivity].
  destruct (read_point k2 b2) as [[c b3]|] eqn:E3; [|reflexivity]. destruct (read_point k2 b3) as [[d b4]|] eqn:E4; [|reflexivity].
  exfalso. apply read_point_some in E1, E2, E3, E4. destruct E1 as [_ [x1 [-> [L1 _]]]]. destruct E2 as [_ [x2 [-> [L2 _]]]].
  destruct E3 as [_ [x3 [-> [L3 _]]]]. destruct E4 as [_ [x4 [-> [L4 _]]]]. rewrite !app_length in L. lia.
Qed.
(** The key is cut down field by field. *)
Lemma claim_C55_truncate : forall (G1 G2 : Type) (vk : BellmanVK G1 G2),
  let t := truncate_verifying_key vk in vk_alpha t = bv_alpha_g1 vk /\ vk_beta t = bv_beta_g2 vk /\ vk_gamma t = bv_gamma_g2 vk /\
  vk_delta t = bv_delta_g2 vk /\ vk_ic t = bv_ic vk.
Proof. auto. Qed.
(** Points 0..255 in one byte and in two; 0 is infinity. *)
Definition toy_codec (n : nat) : PointCodec (Num 251) := mkPC n (fun g => le_bytes n (nval g))
  (fun b => if Nat.eqb (length b) n then if forallb (fun x => Z.leb 0 x && Z.ltb x 256) b then if Z.ltb (le_val b) 251 then Some (num (le_val b)) else None else None else None) nis_zero.
Lemma toy_codec_ok n : (0 < n)%nat -> codec_ok (toy_codec n) /\ codec_strict (toy_codec n).
Proof.
  intros Hn. split; [split; [exact Hn|split]|]; cbn [toy_codec pc_compress pc_size pc_affine].
  - intros g. apply le_bytes_length.
  - intros g. rewrite le_bytes_length, Nat.eqb_refl. pose proof (nval_range g) as R.
    assert (B : Forall byte (le_bytes n (nval g))) by apply le_bytes_byte.
    replace (forallb _ _) with true.
    2:{ symmetry. apply forallb_forall. intros x Hx. rewrite Forall_forall in B. specialize (B x Hx). unfold byte in B. lia. }
    assert (256 <= 256 ^ Z.of_nat n). { replace (Z.of_nat n) with (1 + Z.of_nat (n - 1)) by lia. rewrite Z.pow_add_r by lia. pose proof (Z.pow_pos_nonneg 256 (Z.of_nat (n - 1))). lia. }
    rewrite le_val_le_bytes, Z.mod_small by lia. replace (nval g <? 251) with true by lia. now rewrite num_nval.
  - unfold codec_strict. cbn [toy_codec pc_compress pc_size pc_affine]. intros b g. destruct (Nat.eqb_spec (length b) n) as [L|]; [|congruence]. destruct forallb eqn:F; [|congruence].
    destruct (Z.ltb_spec (le_val b) 251); [|congruence]. intros E. assert (g = num (le_val b)) as -> by congruence.
    assert (B : Forall byte b). { apply Forall_forall. intros x Hx. rewrite forallb_forall in F. specialize (F x Hx). unfold byte. lia. }
    pose proof (le_val_range b B). rewrite nval_num, Z.mod_small by lia. rewrite <- L. symmetry. now apply le_bytes_le_val.
Qed.
Lemma case_C55_read_write :
  codec_ok (toy_codec 1) /\ codec_ok (toy_codec 2) /\ codec_strict (toy_codec 1) /\ codec_strict (toy_codec 2) /\
  let vk := mkVK (num 1) (num 2) (num 3) (num 4) [num 5; num 6] in
  finite_key (toy_codec 2) (toy_codec 1) vk /\ tvk_write (toy_codec 2) (toy_codec 1) vk = [1; 0; 2; 3; 4; 5; 0; 6; 0].
Proof.
  destruct (toy_codec_ok 1 ltac:(lia)) as [A1 A2]. destruct (toy_codec_ok 2 ltac:(lia)) as [B1 B2]. repeat (split; auto).
  repeat constructor.
Qed.

(* C58 *)
(** A collected SizedVec has the declared length; anything else panics. *)
Lemma claim_C58_from_iter : forall (T : Type) (L : nat) (items : list T),
  (length items = L -> sv_from_iter L items = Ok items) /\ (length items <> L -> sv_from_iter L items = Panic) /\
  (forall v, sv_from_iter L items = Ok v -> length v = L).
Proof.
  intros T L items. unfold sv_from_iter. destruct (Nat.eqb_spec (length items) L) as [E|E]; cbn; repeat split; auto; try contradiction.
  - intros v H. congruence. - discriminate.
Qed.
(** Collecting options: all present gives the vector, one missing panics. *)
Lemma claim_C58_collect_option : forall (T : Type) (L : nat) (l : list (option T)), length l = L ->
  match sv_collect_option L l with
  | Ok (Some v) => l = map Some v
  | Ok None => False
  | Panic => In None l
  end.
Proof.
  intros T L l HL. unfold sv_collect_option.
  assert (U : forall l : list (option T), match until_none l with (v, true) => l = map Some v | (v, false) => In None l /\ (length v < length l)%nat end).
  { induction l0 as [|[x|] t IH]; cbn [until_none map In length]; auto; [|split; auto; lia].
    destruct (until_none t) as [v [|]]; cbn [map In length]; [now f_equal|]. destruct IH; split; auto; lia. }
  specialize (U l). destruct (until_none l) as [v [|]].
  - unfold sv_from_iter. subst l. rewrite map_length in HL. rewrite (proj2 (Nat.eqb_eq _ _) HL). reflexivity.
  - destruct U as [U1 U2]. unfold sv_from_iter. replace (Nat.eqb (length v) L) with false by (symmetry; apply Nat.eqb_neq; lia). exact U1.
Qed.
(** Deserializing does not look at the declared length: for every format and every
    stored vector the result is that vector. *)
Lemma claim_C58_deserialize_unchecked : forall (T S : Type) (L : nat) (ser : list T -> S) (de : S -> option (list T)) (v : list T),
  de (ser v) = Some v -> sv_deserialize L de (sv_serialize L ser v) = Some v.
Proof. intros T S L ser de v H. unfold sv_deserialize, sv_serialize. now rewrite H. Qed.
Lemma claim_C58_deserialize_refuted : exists (T S : Type) (L : nat) (de : S -> option (list T)) (s : S) (v : list T),
  sv_deserialize L de s = Some v /\ length v <> L.
Proof. exists nat, (list nat), 3%nat, Some, [1%nat], [1%nat]. split; [reflexivity|cbn; lia]. Qed.
Lemma case_C58_from_iter : sv_from_iter 2 [5; 6] = Ok [5; 6] /\ sv_from_iter 3 [5; 6] = Panic /\ sv_collect_option 2 [Some 5; None] = Panic.
Proof. repeat split. Qed.
