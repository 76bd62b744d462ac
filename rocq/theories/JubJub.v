(** What the library needs from a parameter set, and that both sets provide it. *)

From Verif Require Export CurveBN CurveBLS CodecSpec.
Open Scope num_scope.

Record jubjub_ok {p l} (J : JubJub p l) : Prop := mkJok {
  j_p : prime (Zpos p);
  j_l : prime (Zpos l);
  j_odd : Z.Odd (Zpos l);
  j_m1 : is_square (- (1) : Num p);
  j_d : ~ is_square (jd J);
  j_mont : mont_ok (jd J) (ja J) (jb J);
  j_u : ~ is_square (ju J);
  j_g : on_curve (jd J) (jg J);
  j_g0 : jg J <> e_zero;
  j_gl : emul (jd J) (Zpos l) (jg J) = e_zero;
  j_exp : forall P, on_curve (jd J) P -> emul (jd J) (8 * Zpos l) P = e_zero;
  j_cyc : forall P, on_curve (jd J) P -> emul (jd J) (Zpos l) P = e_zero ->
    exists k, (0 <= k < Zpos l)%Z /\ P = emul (jd J) k (jg J);
  j_card : exists ps, NoDup ps /\ (forall P, In P ps <-> on_curve (jd J) P) /\ Z.of_nat (length ps) = (8 * Zpos l)%Z }.

Lemma blake2s_bytes nn per msg : Forall byte (blake2s nn per msg).
Proof.
  unfold blake2s. cbv zeta. set (h := blake_blocks _ _ _ _). clearbody h.
  assert (X : Forall byte (concat (map (le_bytes 4) h))).
  { induction h as [|w h IH]; cbn [map concat]; [constructor|]. apply Forall_app. split; auto. apply le_bytes_byte. }
  rewrite <- (firstn_skipn nn (concat _)) in X. apply Forall_app in X. apply X.
Qed.

Section New.
Context {p : positive} (Hp : prime (Zpos p)) (l : positive) (Hl : prime (Zpos l)).
Notation F := (Num p).
Add Field jj_field : (num_field Hp) (morphism (@num_morph p), constants [num_cst], power_tac (@num_power p) [num_pow_cst]).
Variables (dn dd A B u : Z) (c : curve_cert).
Hypothesis Hc : cert_check (Zpos p) (Zpos l) (- dn) dd A B u c = true.
Hypothesis Hb : (0 < dn < 2 ^ 31 /\ 0 < dd < 2 ^ 31 /\ 0 < u < 2 ^ 31 /\ 2 ^ 31 < Zpos p)%Z.
Hypothesis Hf : full_bytes p = true.
Hypothesis Hs : (be_val (blake2s (num_bytes p) PERSONALIZATION SEED_EDWARDS_G) mod Zpos p = c_t c)%Z.
Hypothesis Ho : Z.odd (Zpos l) = true.
Lemma jubjub_new_full : exists J : JubJub p l, mrel (num A) (num B) (jg J) (mkM (num (c_u c)) (num (c_v c))) /\ jubjub_ok J /\
  jd J = - (num dn) / num dd /\ ja J = num A /\ jb J = num B /\ ju J = num u /\
  forall sqrt, sqrt_ok sqrt -> jubjub_new l sqrt dn dd u = Ok J.
Proof.
  destruct (cert_ok Hp l Hl (- dn) dd A B u c Hc) as [G [[C1 C2 C3 C4 C5 C6 C7 C8 C9 C10] [RG [Ht HG]]]].
  assert (Nd : (num dd : F) <> 0) by (intros E; apply (f_equal nval) in E; rewrite nval_num_small, nval_zero in E; lia).
  assert (Ed : cd (- dn) dd = - (num dn) / num dd :> F) by (unfold cd; now rewrite num_opp).
  exists (mkJ G (cd (- dn) dd) (num A) (num B) (num u)). split; [exact RG|]. split; [|cbn [jd ja jb ju]; repeat split; auto].
  - split; cbn [jd ja jb ju jg]; auto. apply Z.odd_spec. exact Ho.
  - intros sqrt Sq. unfold jubjub_new. rewrite !from_i32_ok by lia. cbn [rbind].
    rewrite (ndiv_ok _ _ Nd). cbn [rbind]. rewrite <- Ed. set (d := cd (- dn) dd) in *.
    pose proof (one_d_neq0 Hp d C1 C2) as N1.
    assert (T : (num 2 : F) = 1 + 1 /\ (num 4 : F) = (1 + 1) * (1 + 1)).
    { split; [change (num 2 : F) with (num (1 + 1)%Z : F); now rewrite num_add|].
      change (num 4 : F) with (num ((1 + 1) * (1 + 1))%Z : F). now rewrite num_mul, num_add. }
    rewrite !(ndiv_ok _ _ N1). cbn [rbind]. destruct T as [-> ->]. destruct C3 as [M1 M2].
    replace ((1 + 1) * (1 - d) / (1 + d)) with (num A : F) by (rewrite <- M1; field; auto).
    replace (- ((1 + 1) * (1 + 1)) / (1 + d)) with (num B : F) by (rewrite <- M2; field; auto).
    unfold from_seed. rewrite from_binary_be_ok, Hf by apply blake2s_bytes. cbn [rbind].
    replace (num (be_val (blake2s (num_bytes p) PERSONALIZATION SEED_EDWARDS_G)) : F) with (num (c_t c) : F)
      by (apply num_eq_mod; rewrite <- Hs; apply Zmod_mod).
    rewrite HG by auto. reflexivity.
Qed.
Lemma jubjub_new_ok : exists J : JubJub p l, jubjub_ok J /\
  jd J = - (num dn) / num dd /\ ja J = num A /\ jb J = num B /\ ju J = num u /\
  forall sqrt, sqrt_ok sqrt -> jubjub_new l sqrt dn dd u = Ok J.
Proof. destruct jubjub_new_full as [J [_ H]]. exists J. exact H. Qed.
(** The generator, whatever the square roots. *)
Lemma jubjub_new_gen (x y : Z) (sqrt : F -> option F) (J : JubJub p l) : sqrt_ok sqrt -> jubjub_new l sqrt dn dd u = Ok J ->
  (CurveCert.eqm (Zpos p) (x * c_v c) (c_u c) && CurveCert.eqm (Zpos p) (y * (c_u c + 1)) (c_u c - 1) &&
   negb (CurveCert.eqm (Zpos p) (c_v c) 0) && negb (CurveCert.eqm (Zpos p) (c_u c + 1) 0))%Z%bool = true -> jg J = mkE (num x) (num y).
Proof using Hp Hl Hc Hb Hf Hs Ho.
  intros Hq E C. destruct jubjub_new_full as [J' [[_ [R1 R2]] [_ [_ [_ [_ [_ H]]]]]]].
  rewrite (H sqrt Hq) in E. assert (J' = J) by congruence. subst J'. cbn [mx my] in R1, R2.
  rewrite !Bool.andb_true_iff, !Bool.negb_true_iff, !(eqm_neq (p := p)), !(eqm_num (p := p)) in C by auto.
  destruct C as [[[Ex Ey] Nv] Nu].
  rewrite num_mul in Ex, Ey. rewrite num_add in Nu, Ey. rewrite num_sub in Ey.
  change (num 0 : F) with (0 : F) in *. change (num 1 : F) with (1 : F) in *.
  set (U := num (c_u c) : F) in *. set (V := num (c_v c) : F) in *.
  destruct (jg J) as [gx gy]. cbn [ex ey] in *. apply e_ext; cbn [ex ey].
  - apply (nmul_cancel_l Hp V); auto. transitivity (gx * V); [ring|]. rewrite R2, <- Ex. ring.
  - apply (nmul_cancel_l Hp (U + 1)); auto. transitivity (num y * (U + 1)); [|ring]. rewrite Ey.
    transitivity (U - U * (1 - gy) + gy); [ring|]. rewrite R1. ring.
Qed.
End New.

Theorem jubjub_bn_ok : exists J : JubJub bn_r bn_l, jubjub_ok J /\
  jd J = - (num 168696) / num 168700 /\ ja J = num 168698 /\ jb J = num (-168700) /\ ju J = num 337401 /\
  forall sqrt, sqrt_ok sqrt -> jubjub_bn sqrt = Ok J.
Proof.
  apply (jubjub_new_ok bn_r_prime bn_l bn_l_prime 168696 168700 168698 (-168700) 337401 bn_cert bn_check);
    [unfold bn_r; lia|vm_compute; reflexivity..].
Qed.
Theorem jubjub_bls_ok : exists J : JubJub bls_r bls_l, jubjub_ok J /\
  jd J = - (num 10240) / num 10241 /\ ja J = num 40962 /\ jb J = num (-40964) /\ ju J = num 81929 /\
  forall sqrt, sqrt_ok sqrt -> jubjub_bls sqrt = Ok J.
Proof.
  apply (jubjub_new_ok bls_r_prime bls_l bls_l_prime 10240 10241 40962 (-40964) 81929 bls_cert bls_check);
    [unfold bls_r; lia|vm_compute; reflexivity..].
Qed.

(** The generators *)
Definition bn_gx : Z := 3136769009115878734591535780061023271603672807505340687898033796924625038576.
Definition bn_gy : Z := 9219167653453464779020540250694647714630525780448598382451117487063353539706.
Lemma jubjub_bn_unfold sqrt : jubjub_bn sqrt = jubjub_new bn_l sqrt 168696 168700 337401.
Proof. unfold jubjub_bn. reflexivity. Qed.
Lemma jubjub_bn_gen sqrt J : sqrt_ok sqrt -> jubjub_bn sqrt = Ok J -> jg J = mkE (num bn_gx) (num bn_gy).
Proof.
  intros Hq E.
  pose proof (jubjub_new_gen bn_r_prime bn_l bn_l_prime 168696 168700 168698 (-168700) 337401 bn_cert bn_check) as H.
  rewrite jubjub_bn_unfold in E.
  refine (H _ _ _ _ bn_gx bn_gy sqrt J Hq E _); [unfold bn_r; lia|vm_compute; reflexivity..].
Qed.
Definition bls_gx : Z := 44712518387605426644504699667580005941754982390059929374970847015217361777390.
Definition bls_gy : Z := 46846510589459161038357857118145854213068421404599278795502517840024729615816.
Lemma jubjub_bls_unfold sqrt : jubjub_bls sqrt = jubjub_new bls_l sqrt 10240 10241 81929.
Proof. unfold jubjub_bls. reflexivity. Qed.
Lemma jubjub_bls_gen sqrt J : sqrt_ok sqrt -> jubjub_bls sqrt = Ok J -> jg J = mkE (num bls_gx) (num bls_gy).
Proof.
  intros Hq E.
  pose proof (jubjub_new_gen bls_r_prime bls_l bls_l_prime 10240 10241 40962 (-40964) 81929 bls_cert bls_check) as H.
  rewrite jubjub_bls_unfold in E.
  refine (H _ _ _ _ bls_gx bls_gy sqrt J Hq E _); [unfold bls_r; lia|vm_compute; reflexivity..].
Qed.
