(** A checkable certificate for the parameters of a JubJub curve. *)

From Verif Require Export CurveCard.
From Verif Require Import Primality.
Open Scope Z_scope.

Record curve_cert : Type := mkCert {
  c_n : Z;          (* a small non-square *)
  c_i : Z;          (* square root of -1 *)
  c_rd : Z;         (* square root of n * dn * dd *)
  c_ru : Z;         (* square root of n * u *)
  c_x8 : Z; c_y8 : Z; c_r8 : Z;   (* point of order 8; square root of n * (1 - y8^2) * dd * (dd + dn) *)
  c_t : Z;          (* the generator seed *)
  c_x3 : Z; c_y3 : Z;             (* the Montgomery point of the seed *)
  c_prog0 : list mstep; c_u : Z; c_v : Z;  (* 8 times that point *)
  c_prog : list mstep }.          (* its order *)

Definition eqm (p a b : Z) : bool := (a - b) mod p =? 0.
Definition cert_check (p l dn dd A B u : Z) (c : curve_cert) : bool :=
  let '(mkCert n i rd ru x8 y8 r8 t x3 y3 prog0 gu gv prog) := c in
  (2 <? p) && Z.odd p && Z.odd l && (2 * p <? 24 * l) && (2 * p <? l * l) && negb (eqm p n 0) &&
  (powmM p n (Z.to_pos ((p - 1) / 2)) =? p - 1) &&
  eqm p (i * i) (-1) &&
  negb (eqm p dd 0) && negb (eqm p rd 0) && eqm p (n * (dn * dd)) (rd * rd) &&
  negb (eqm p ru 0) && eqm p (n * u) (ru * ru) &&
  (A * (dd + dn) =? 2 * (dd - dn)) && (B * (dd + dn) =? - (4 * dd)) &&
  eqm p (dd * (y8 * y8 - x8 * x8 - 1)) (dn * ((x8 * x8 mod p) * (y8 * y8 mod p))) && eqm p (y8 * y8 + x8 * x8) 0 &&
  negb (eqm p r8 0) && eqm p (n * (dd * ((dd + dn) * (1 - y8 * y8)))) (r8 * r8) &&
  negb (eqm p (t + 1) 0) && eqm p (A * x3 + 1 + u * ((t + 1) * (t + 1))) 0 &&
  eqm p (B * (y3 * y3)) (x3 * (x3 * x3 + A * x3 + 1)) && (0 <? x3) && (x3 <? p) && (0 <? y3) && (y3 <? p) && Z.even y3 &&
  match mprog_run p A B prog0 [(1, x3, y3)] with
  | Some ((k, u', v') :: _) => (k =? 8) && (u' =? gu) && (v' =? gv)
  | _ => false
  end &&
  mprog_check p A B l prog gu gv.

Section Cert.
Context {p : positive} (Hp : prime (Zpos p)) (l : positive) (Hl : prime (Zpos l)).
Notation F := (Num p).
Add Field cc_field : (num_field Hp) (morphism (@num_morph p), constants [num_cst], power_tac (@num_power p) [num_pow_cst]).
Variables (dn dd A B u : Z) (c : curve_cert).
Open Scope num_scope.
Set Default Proof Using "Type*".

Lemma eqm_num a b : eqm (Zpos p) a b = true <-> (num a : F) = num b.
Proof.
  unfold eqm. rewrite Z.eqb_eq. split; intros H.
  - apply num_eq_mod. rewrite Z.mod_divide in H by lia. destruct H as [k Hk]. replace a with (b + k * Zpos p)%Z by lia. apply Z_mod_plus_full.
  - apply (f_equal nval) in H. rewrite !nval_num in H. rewrite Zminus_mod, H, Z.sub_diag. reflexivity.
Qed.
Lemma eqm_neq a b : eqm (Zpos p) a b = false <-> (num a : F) <> num b.
Proof. rewrite <- eqm_num. destruct (eqm _ _ _); split; congruence. Qed.
Definition cd : F := num dn / num dd.
Lemma nonsq_by (n a r : F) : ~ is_square n -> n * a = r * r -> r <> 0 -> ~ is_square a.
Proof.
  intros Hn E Hr Ha. apply Hn. apply (is_square_cancel Hp a); [|exact Ha|].
  - intros Z. rewrite Z in E. assert (X : r * r = 0) by (rewrite <- E; ring). destruct (nmul_integral Hp _ _ X); auto.
  - replace (a * n) with (n * a) by ring. rewrite E. apply is_square_sq.
Qed.

Record curve_ok (G : EPoint p) : Prop := mkCok {
  co_m1 : is_square (- (1) : F);
  co_d : ~ is_square cd;
  co_mont : mont_ok cd (num A) (num B);
  co_u : ~ is_square (num u : F);
  co_g : on_curve cd G;
  co_g0 : G <> e_zero;
  co_gl : emul cd (Zpos l) G = e_zero;
  co_exp : forall P, on_curve cd P -> emul cd (8 * Zpos l) P = e_zero;
  co_cyc : forall P, on_curve cd P -> emul cd (Zpos l) P = e_zero -> exists k, (0 <= k < Zpos l)%Z /\ P = emul cd k G;
  co_card : exists ps, NoDup ps /\ (forall P, In P ps <-> on_curve cd P) /\ Z.of_nat (length ps) = (8 * Zpos l)%Z }.

Hypothesis Hc : cert_check (Zpos p) (Zpos l) dn dd A B u c = true.
Theorem cert_ok : exists G, curve_ok G /\ mrel (num A) (num B) G (mkM (num (c_u c)) (num (c_v c))) /\ (num (c_t c) : F) + 1 <> 0 /\
  forall sqrt, sqrt_ok sqrt -> from_scalar_raw sqrt (num (c_t c)) (num A) (num B) (num u) = Ok G.
Proof.
  revert Hc. unfold cert_check. destruct c as [n i rd ru x8 y8 r8 t x3 y3 prog0 gu gv prog]. cbn [c_t c_u c_v].
  rewrite !Bool.andb_true_iff, !Bool.negb_true_iff, !eqm_neq, !eqm_num, !Z.eqb_eq, !Z.ltb_lt.
  intros [[[[[[[[[[[[[[[[[[[[[[[[[[[[E0 E0'] El] E24] EL2] En] Eu] Ei] Edd] Erd] Erd'] Eru] Eru'] EA] EB] E8] E8'] Er8] Er8'] Et] Et'] Ey3] Ex0] Exp] Ey0] Eyp] Eev] Erun] Eprog].
  assert (N0 : (num 0 : F) = 0) by reflexivity. assert (N1 : (num 1 : F) = 1) by reflexivity. rewrite N0 in *.
  assert (Hn : ~ is_square (num n : F)).
  { apply (euler_nonsquare Hp); auto.
    - now apply Zodd_bool_iff.
    - rewrite powmM_powm, powm_spec, Z2Pos.id in Eu by (try lia; apply Z.div_str_pos; lia).
      rewrite npow_num. intros X. rewrite Z2N.id in X by (apply Z.div_pos; lia).
      apply (f_equal nval) in X. rewrite nval_num, Eu, <- N1, nval_num, Z.mod_small in X by lia. lia. }
  assert (Hm1 : is_square (- (1) : F)).
  { exists (num i). rewrite <- num_mul, Ei. change (num (-1) : F) with (num (Z.opp 1) : F). now rewrite num_opp, N1. }
  assert (Hdd : cd * num dd = num dn) by (unfold cd; field; auto).
  assert (Hd : ~ is_square cd).
  { intros [x Hx]. apply (nonsq_by (num n) (num (dn * dd)) (num rd)); auto.
    - now rewrite <- !num_mul.
    - exists (x * num dd). rewrite num_mul, <- Hdd, <- Hx. ring. }
  assert (HM : mont_ok cd (num A) (num B)).
  { assert (X : num dd * (1 + cd) = num (dd + dn)) by (rewrite num_add, <- Hdd; ring).
    split; apply (nmul_cancel_l Hp (num dd)); auto.
    - transitivity (num A * (num dd * (1 + cd))); [ring|]. rewrite X, <- num_mul, EA, num_mul, num_sub, <- Hdd.
      change (num 2 : F) with (num (1 + 1)%Z : F). rewrite num_add, N1. ring.
    - transitivity (num B * (num dd * (1 + cd))); [ring|]. rewrite X, <- num_mul, EB, num_opp, num_mul.
      change (num 4 : F) with (num ((1 + 1) * (1 + 1))%Z : F). rewrite num_mul, num_add, N1. ring. }
  assert (Hu : ~ is_square (num u : F)).
  { apply (nonsq_by (num n) (num u) (num ru)); auto. now rewrite <- !num_mul. }
  pose (W8 := mkE (num x8) (num y8) : EPoint p).
  assert (HW : on_curve cd W8).
  { unfold on_curve, W8; cbn [ex ey]. apply (nmul_cancel_l Hp (num dd)); auto.
    rewrite !num_mul, !num_sub, !num_mul, N1 in E8.
    assert (Mx : forall z, (num (z mod Zpos p) : F) = num z) by (intros; apply num_eq_mod, Zmod_mod).
    rewrite !Mx, !num_mul in E8.
    transitivity (num dd * (num y8 * num y8 - num x8 * num x8 - 1) + num dd : F); [ring|]. rewrite E8, <- Hdd. ring. }
  assert (HW' : ey W8 * ey W8 + ex W8 * ex W8 = 0) by (unfold W8; cbn [ex ey]; rewrite <- !num_mul, <- num_add; exact E8').
  assert (HWn : ~ is_square ((1 - ey W8 * ey W8) * (1 + cd))).
  { intros [x Hx]. apply (nonsq_by (num n) (num (dd * ((dd + dn) * (1 - y8 * y8)))) (num r8)); auto; [now rewrite <- !num_mul|].
    exists (x * num dd). transitivity ((x * x) * (num dd * num dd)); [ring|]. rewrite Hx. unfold W8; cbn [ey].
    rewrite !num_mul, num_add, num_sub, num_mul, N1, <- Hdd. ring. }
  pose (M := mkM (num x3) (num y3) : MPoint p).
  pose proof (A_neq0 Hp cd (num A) (num B) Hm1 Hd HM) as NA. pose proof (B_neq0 Hp cd (num A) (num B) Hm1 Hd HM) as NB.
  assert (Ht : (num t : F) + 1 <> 0) by (rewrite <- N1, <- num_add; exact Et).
  pose proof (tau_neq0 Hp cd (num A) (num B) Hm1 Hd HM (num u) Hu (num t) Ht) as NT.
  pose proof (tau_nonsquare Hp cd (num A) (num B) Hm1 Hd HM (num u) Hu (num t) Ht) as TN.
  assert (X3 : (num x3 : F) = fs_x3 (num A) (num u) (num t)).
  { unfold fs_x3, fs_x2. set (w := tau (num u) (num t)) in *.
    assert (Ew : num A * num x3 + 1 + w = 0).
    { rewrite <- Et', !num_add, !num_mul, !num_add, N1. unfold w, tau. ring. }
    apply (nmul_cancel_l Hp (num A)); auto. transitivity (num A * num x3 + 1 + w - (1 + w)); [ring|]. rewrite Ew. field; auto. }
  assert (Y3 : num y3 * num y3 = mg (num A) (num B) (num x3) :> F).
  { rewrite !num_mul, !num_add, !num_mul, N1 in Ey3. unfold mg. apply (nmul_cancel_l Hp (num B)); auto. rewrite Ey3. field; auto. }
  assert (Ny3 : (num y3 : F) <> 0) by (apply (num_zero_iff Hp cd A B Hm1 Hd HM e_zero (onc_zero Hp cd Hm1 Hd)); lia).
  assert (FS : fs_point (num A) (num B) (num u) (num t) M).
  { unfold fs_point, M; cbn [mx my]. split; [rewrite nval_num_small by lia; exact Eev|]. right. rewrite <- X3. repeat split; auto.
    intros S2. pose proof (mg_x3 Hp cd (num A) (num B) Hm1 Hd HM (num u) Hu (num t) Ht) as K. rewrite <- X3, <- Y3 in K.
    apply TN. set (w := tau (num u) (num t)) in *. set (m2 := mg (num A) (num B) (fs_x2 (num A) (num u) (num t))) in *.
    assert (Nm : m2 <> 0). { intros Z. rewrite Z in K. apply Ny3. assert (X : num y3 * num y3 = (0 : F)) by (rewrite K; ring). destruct (nmul_integral Hp _ _ X); auto. }
    apply (is_square_cancel Hp m2); auto. apply (is_square_cancel Hp (w * w)); [apply (nmul_nonzero Hp); auto|apply is_square_sq|].
    replace (w * w * (m2 * w)) with (w * w * w * m2) by ring. rewrite <- K. apply is_square_sq. }
  pose proof (fs_point_onm Hp cd (num A) (num B) Hm1 Hd HM (num u) Hu _ _ FS) as OM.
  destruct (unmont_ok Hp cd (num A) (num B) Hm1 Hd HM M OM) as [C0 [_ R0]].
  set (P0 := unmont M) in *.
  pose proof (edwards_group Hp cd Hm1 Hd) as EG.
  assert (RG : (0 < gu < Zpos p)%Z /\ mrel (num A) (num B) (emul cd 8 P0) (mkM (num gu) (num gv))).
  { destruct (mprog_run _ A B prog0 _) as [[|[[k u'] v'] rs]|] eqn:E; try discriminate.
    rewrite !Bool.andb_true_iff, !Z.eqb_eq in Erun. destruct Erun as [[-> ->] ->].
    apply (mprog_ok Hp cd A B Hm1 Hd HM P0 C0) in E.
    - apply Forall_cons_iff in E. exact (proj1 E).
    - constructor; auto. split; [lia|]. unfold emul. rewrite (zmul_1 EG) by auto. exact R0. }
  set (G := emul cd 8 P0) in *. assert (CG : on_curve cd G) by now apply (onc_emul Hp cd Hm1 Hd).
  destruct RG as [_ RG].
  assert (G0 : G <> e_zero) by (eapply (mrel_onc Hp cd (num A) (num B) Hm1 Hd HM); eauto).
  assert (Gl : emul cd (Zpos l) G = e_zero) by (eapply (mprog_order Hp cd A B Hm1 Hd HM G CG); eauto).
  assert (Lo : Z.Odd (Zpos l)) by (apply Z.odd_spec; exact El).
  exists G. split; [|split; [exact RG|split; auto]].
  - assert (Ex : forall P, on_curve cd P -> emul cd (8 * Zpos l) P = e_zero)
      by (intros P; apply (exponent Hp cd Hm1 Hd W8 HW HW' HWn (Zpos l) G); auto).
    split; auto.
    + intros P. apply (subgroup_cyclic Hp cd Hm1 Hd (Zpos l) G); auto.
    + exists (points cd). split; [apply NoDup_nodup|]. split; [intros P; symmetry; apply (points_ok Hp cd Hm1 Hd)|].
      apply (card_8l Hp cd Hm1 Hd (Zpos l) G Hl CG G0 Gl EL2 Lo Ex W8 HW HW').
  - intros sqrt Hs. destruct (from_scalar_raw_ok Hp cd (num A) (num B) Hm1 Hd HM (num u) Hu sqrt Hs (num t) Ht) as [M' [FS' E']].
    rewrite E'. unfold G, P0. do 2 f_equal.
    assert (EM : M' = M) by (apply (fs_point_unique Hp cd (num A) (num B) Hm1 Hd HM (num u) Hu (num t)); auto). now rewrite EM.
Qed.
End Cert.
