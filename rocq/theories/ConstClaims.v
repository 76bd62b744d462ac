(** Claims about the curve gadgets on constant points (circuit/ecc.rs). *)

From Verif Require Export CEccClaims.
Open Scope num_scope.

Section Const.
Context {p : positive} (Hp : Prime p).
Notation F := (Num p).
Add Field const_field : (num_field Hp) (morphism (@num_morph p), constants [num_cst], power_tac (@num_power p) [num_pow_cst]).
(** A constant, as the operators produce it: the term list may have lost a zero. *)
Definition isc (k : F) (c : CNum p) : Prop := cvalue c = Some k /\ (clc c = [(I0, k)] \/ (clc c = [] /\ k = 0)).
Lemma isc_const k : isc k (cconst k).
Proof. split; auto. Qed.
Lemma isc_as_const k c : isc k c -> as_const c = Some k.
Proof. intros [_ [E|[E ->]]]; unfold as_const; rewrite E; reflexivity. Qed.
Lemma isc_merge g f (a b : F) (la lb : lcT p) : (forall v, f v = g 0 v) -> (forall v, g v 0 = v) ->
  la = [(I0, a)] \/ (la = [] /\ a = 0) -> lb = [(I0, b)] \/ (lb = [] /\ b = 0) ->
  merge_lc g f la lb = [(I0, g a b)] \/ (merge_lc g f la lb = [] /\ g a b = 0).
Proof.
  intros Hf Hg [->|[-> ->]] [->|[-> ->]]; unfold merge_lc; cbn.
  - destruct (nis_zero (g a b)) eqn:E; cbn; [right; split; auto; now apply nis_zero_eq|left; reflexivity].
  - left. now rewrite Hg.
  - left. now rewrite Hf.
  - right. split; auto.
Qed.
Lemma isc_add a b x y : isc a x -> isc b y -> isc (a + b) (cadd x y).
Proof.
  intros [Ex Lx] [Ey Ly]. split; [unfold cadd; cbn [cvalue]; rewrite Ex, Ey; reflexivity|].
  apply isc_merge; auto; intros; ring.
Qed.
Lemma isc_sub a b x y : isc a x -> isc b y -> isc (a - b) (csub x y).
Proof.
  intros [Ex Lx] [Ey Ly]. split; [unfold csub; cbn [cvalue]; rewrite Ex, Ey; reflexivity|].
  apply isc_merge; auto; intros; ring.
Qed.
Lemma isc_cap a b x y : isc a x -> isc b y -> isc (a + b) (cadd_cap x y).
Proof.
  intros X Y. unfold cadd_cap. destruct Nat.leb; [now apply isc_add|]. replace (a + b) with (b + a) by ring. now apply isc_add.
Qed.
Lemma isc_mul_num a x k : isc a x -> isc (a * k) (cmul_num x k).
Proof.
  intros [E L]. unfold cmul_num. destruct (nis_zero k) eqn:Z.
  - apply nis_zero_eq in Z. subst k. replace (a * 0) with (0 : F) by ring. apply isc_const.
  - split; cbn [cvalue clc]; [now rewrite E|]. destruct L as [->|[-> ->]]; [left; reflexivity|right; split; [reflexivity|ring]].
Qed.
Lemma isc_mul a b x y : isc a x -> isc b y -> exists r, cmul x y = Ret r /\ isc (a * b) r.
Proof.
  intros X Y. unfold cmul. rewrite (isc_as_const _ _ X). eexists. split; [reflexivity|].
  replace (a * b) with (b * a) by ring. now apply isc_mul_num.
Qed.
(** Division of constants gives the inverse quotient. *)
Lemma isc_div a b x y : isc a x -> isc b y -> a <> 0 -> exists r, cdiv x y = Ret r /\ isc (b / a) r.
Proof.
  intros X Y N. unfold cdiv. rewrite (isc_as_const _ _ X), cdiv_num_ok by auto. eexists. split; [reflexivity|].
  destruct Y as [E L]. split; cbn [cvalue clc]; [now rewrite E|]. destruct L as [->|[-> ->]]; [left; reflexivity|].
  right. split; [reflexivity|]. field. exact N.
Qed.
Lemma isc_div_zero b x y : isc 0 x -> isc b y -> cdiv x y = PPanic.
Proof.
  intros X Y. unfold cdiv. rewrite (isc_as_const _ _ X), cdiv_num_zero; [reflexivity|left]. destruct Y as [E _]. congruence.
Qed.
Lemma isc_quot_eq (n t : F) : n <> 0 -> t <> 0 -> t / n = 1 / (n / t).
Proof. intros. field. auto. Qed.
Lemma isc_quot_zero (n t : F) : t <> 0 -> n / t = 0 <-> n = 0.
Proof.
  intros N. split; [|intros ->; field; auto]. intros E. replace n with (n / t * t) by (field; auto). rewrite E. ring.
Qed.
(** Two quotients of constants in a row. *)
Lemma isc_div2 n1' t1 n2' t2 x1 y1 x2 y2 : isc n1' x1 -> isc t1 y1 -> isc n2' x2 -> isc t2 y2 -> t1 <> 0 -> t2 <> 0 ->
  let m := x <-- cdiv x1 y1 ;; y <-- cdiv x2 y2 ;; Ret (mkP x y) in
  (n1' / t1 <> 0 -> n2' / t2 <> 0 -> exists R, m = Ret R /\ cp_as_const R = Some (1 / (n1' / t1), 1 / (n2' / t2))) /\
  (n1' / t1 = 0 \/ n2' / t2 = 0 -> m = PPanic).
Proof.
  intros A B C D N1 N2 m. rewrite !isc_quot_zero by auto. destruct (num_eq_dec n1' 0) as [Z1|Z1].
  { split; [tauto|]. intros _. unfold m. rewrite Z1 in A. now rewrite (isc_div_zero _ _ _ A B). }
  destruct (isc_div _ _ _ _ A B Z1) as [r1 [E1 R1]]. unfold m. rewrite E1. cbn [pbind].
  destruct (num_eq_dec n2' 0) as [Z2|Z2].
  { split; [tauto|]. intros _. rewrite Z2 in C. now rewrite (isc_div_zero _ _ _ C D). }
  destruct (isc_div _ _ _ _ C D Z2) as [r2 [E2 R2]]. rewrite E2. cbn [pbind]. split; [|tauto]. intros _ _.
  eexists. split; [reflexivity|]. unfold cp_as_const. cbn [px py]. rewrite (isc_as_const _ _ R1), (isc_as_const _ _ R2).
  now rewrite <- !isc_quot_eq.
Qed.
Lemma isc_eq a b x : a = b -> isc a x -> isc b x.
Proof. now intros ->. Qed.
End Const.

Section Polys.
Context {p : positive}.
Notation F := (Num p).
Add Ring poly_ring : (@num_ring p) (morphism (@num_morph p), constants [num_cst], power_tac (@num_power p) [num_pow_cst]).
Lemma num_two : (num 2 : F) = 1 + 1.
Proof. change (num 2 : F) with (num (1 + 1)%Z : F). now rewrite num_add. Qed.
Lemma add_num_x (x1 y1 x2 y2 : F) : x1 * y2 + x2 * y1 = x1 * y2 + y1 * x2.
Proof. ring. Qed.
Lemma add_den_x (d x1 y1 x2 y2 : F) : x1 * y2 * (x2 * y1) * d + 1 = 1 + d * x1 * x2 * y1 * y2.
Proof. ring. Qed.
Lemma add_num_y (x1 y1 x2 y2 : F) : (x1 + y1) * (x2 + y2) - x1 * y2 - x2 * y1 = y1 * y2 + x1 * x2.
Proof. ring. Qed.
Lemma add_den_y (d x1 y1 x2 y2 : F) : 1 - x1 * y2 * (x2 * y1) * d = 1 - d * x1 * x2 * y1 * y2.
Proof. ring. Qed.
Lemma dbl_num_x (x y : F) : x * y * num 2 = x * y + y * x.
Proof. rewrite num_two. ring. Qed.
Lemma dbl_den_x (d x y : F) : x * y * (x * y) * d + 1 = 1 + d * x * x * y * y.
Proof. ring. Qed.
Lemma dbl_num_y (x y : F) : (x + y) * (x + y) - x * y * num 2 = y * y + x * x.
Proof. rewrite num_two. ring. Qed.
Lemma dbl_den_y (d x y : F) : 1 - x * y * (x * y) * d = 1 - d * x * x * y * y.
Proof. ring. Qed.
End Polys.

(* C71 *)
(** Addition of constant points: the coordinates of the sum come out inverted, and a zero one panics. *)
Lemma claim_C71_add_actual : forall (p l : positive) (J : JubJub p l) (P Q : EPoint p), jubjub_ok J ->
  on_curve (jd J) P -> on_curve (jd J) Q ->
  let m := ce_add (jd J) (cp_from_const (ex P) (ey P)) (cp_from_const (ex Q) (ey Q)) in let S := eadd (jd J) P Q in
  (ex S <> 0 -> ey S <> 0 -> exists R, m = Ret R /\ cp_as_const R = Some (1 / ex S, 1 / ey S)) /\
  (ex S = 0 \/ ey S = 0 -> m = PPanic).
Proof.
  intros p l J P Q K HP HQ. pose proof (j_p _ K) as Hp. pose proof (j_m1 _ K) as Hm1. pose proof (j_d _ K) as Hd.
  destruct (complete Hp (jd J) Hm1 Hd P Q HP HQ) as [N1 N2]. pose proof (num_ring (p := p)) as NR. clear K.
  intros m S. destruct P as [x1 y1], Q as [x2 y2]. unfold m, S, ce_add, eadd, cp_from_const. cbn [px py ex ey] in *. clear m S.
  pose proof (@isc_const p) as IC.
  destruct (isc_mul Hp _ _ _ _ (IC x1) (IC y2)) as [v1 [-> I1]]. destruct (isc_mul Hp _ _ _ _ (IC x2) (IC y1)) as [v2 [-> I2]]. cbn [pbind].
  destruct (isc_mul Hp _ _ _ _ I1 I2) as [v12 [-> I12]]. cbn [pbind].
  destruct (isc_mul Hp _ _ _ _ (isc_cap Hp _ _ _ _ (IC x1) (IC y1)) (isc_cap Hp _ _ _ _ (IC x2) (IC y2))) as [u [-> Iu]]. cbn [pbind].
  apply (isc_div2 Hp).
  - eapply isc_eq; [|exact (isc_cap Hp _ _ _ _ I1 I2)]. apply add_num_x.
  - eapply isc_eq; [|exact (isc_add Hp _ _ _ _ (isc_mul_num Hp _ _ (jd J) I12) (IC 1))]. apply add_den_x.
  - eapply isc_eq; [|exact (isc_sub Hp _ _ _ _ (isc_sub Hp _ _ _ _ Iu I1) I2)]. apply add_num_y.
  - eapply isc_eq; [|exact (isc_sub Hp _ _ _ _ (IC 1) (isc_mul_num Hp _ _ (jd J) I12))]. apply add_den_y.
  - exact N1.
  - exact N2.
Qed.
Lemma claim_C71_double_actual : forall (p l : positive) (J : JubJub p l) (P : EPoint p), jubjub_ok J -> on_curve (jd J) P ->
  let m := ce_double (jd J) (cp_from_const (ex P) (ey P)) in let S := eadd (jd J) P P in
  (ex S <> 0 -> ey S <> 0 -> exists R, m = Ret R /\ cp_as_const R = Some (1 / ex S, 1 / ey S)) /\
  (ex S = 0 \/ ey S = 0 -> m = PPanic).
Proof.
  intros p l J P K HP. pose proof (j_p _ K) as Hp. pose proof (j_m1 _ K) as Hm1. pose proof (j_d _ K) as Hd.
  destruct (complete Hp (jd J) Hm1 Hd P P HP HP) as [N1 N2]. clear K.
  intros m S. destruct P as [x y]. unfold m, S, ce_double, eadd, cp_from_const, csquare. cbn [px py ex ey] in *. clear m S.
  pose proof (@isc_const p) as IC.
  destruct (isc_mul Hp _ _ _ _ (IC x) (IC y)) as [v [-> Iv]]. cbn [pbind].
  destruct (isc_mul Hp _ _ _ _ Iv Iv) as [v2 [-> I2]]. cbn [pbind].
  pose proof (isc_cap Hp _ _ _ _ (IC x) (IC y)) as Is. destruct (isc_mul Hp _ _ _ _ Is Is) as [u [-> Iu]]. cbn [pbind].
  apply (isc_div2 Hp).
  - eapply isc_eq; [|exact (isc_mul_num Hp _ _ (num 2) Iv)]. apply dbl_num_x.
  - eapply isc_eq; [|exact (isc_add Hp _ _ _ _ (isc_mul_num Hp _ _ (jd J) I2) (IC 1))]. apply dbl_den_x.
  - eapply isc_eq; [|exact (isc_sub Hp _ _ _ _ Iu (isc_mul_num Hp _ _ (num 2) Iv))]. apply dbl_num_y.
  - eapply isc_eq; [|exact (isc_sub Hp _ _ _ _ (IC 1) (isc_mul_num Hp _ _ (jd J) I2))]. apply dbl_den_y.
  - exact N1.
  - exact N2.
Qed.

(** So the gadgets are wrong on constant points: on a toy curve, runs whose constraints hold and whose result
    is not the sum, the double, or eight times the point. *)
Lemma claim_C71_const_refuted : exists (p l : positive) (J : JubJub p l) (P Q : EPoint p), jubjub_ok J /\ insub J P /\ insub J Q /\
  let c P := cp_from_const (ex P) (ey P) in
  demo [] (ce_add (jd J) (c P) (c Q)) (fun s R => cpe s R <> eadd (jd J) P Q) /\
  demo [] (ce_double (jd J) (c P)) (fun s R => cpe s R <> eadd (jd J) P P) /\
  demo [] (ce_mul_by_cofactor (jd J) (c P)) (fun s R => cpe s R <> emul (jd J) 8 P).
Proof.
  exists 73%positive, 11%positive, toy2, (e73 1 56), (e73 19 68). split; [exact toy2_ok|]. split; [insub73|]. split; [insub73|].
  cbv zeta. split; [demo_npt|]. split; demo_npt.
Qed.
(** from_scalar of a constant: the inverted quotient moves the Montgomery point by (0, 0), which the cofactor
    removes again, but the root chosen by parity may then be the other one and the result the negative. *)
Lemma claim_C71_from_scalar_refuted : exists (p l : positive) (J : JubJub p l) (sqrt : Num p -> option (Num p)) (t : Num p) (P : EPoint p),
  jubjub_ok J /\ (forall a, match sqrt a with Some b => b * b = a | None => ~ is_square a end) /\ from_scalar sqrt J t = Ok P /\
  demo [] (ce_from_scalar sqrt J (cconst t)) (fun s R => cpe s R <> P).
Proof.
  exists 73%positive, 11%positive, toy2, sqrt_search, (num 14),
    (match from_scalar sqrt_search toy2 (num 14) with Ok P => P | Panic => e73 0 1 end).
  split; [exact toy2_ok|]. split; [apply sqrt_search_ok|]. split.
  - destruct (from_scalar sqrt_search toy2 (num 14)) as [P|] eqn:E; [reflexivity|]. exfalso.
    assert (X : match from_scalar sqrt_search toy2 (num 14 : Num 73) with Ok _ => true | Panic => false end = true) by (vm_compute; reflexivity).
    rewrite E in X. discriminate.
  - demo_npt.
Qed.

(** ** Cases *)
Lemma case_C71_add_actual : on_curve (jd toy2) (e73 1 56) /\ on_curve (jd toy2) (e73 19 68) /\
  ex (eadd (jd toy2) (e73 1 56) (e73 19 68)) <> 0 /\ ey (eadd (jd toy2) (e73 1 56) (e73 19 68)) <> 0.
Proof. split; [apply e_is_in_curve_iff; vm_compute; reflexivity|]. split; [apply e_is_in_curve_iff; vm_compute; reflexivity|]. split; apply neqb_neq; vm_compute; reflexivity. Qed.
(** Doubling the point of order two panics. *)
Lemma case_C71_double_actual : on_curve (jd toy2) (e73 0 72) /\ ex (eadd (jd toy2) (e73 0 72) (e73 0 72)) = 0 /\
  ce_double (jd toy2) (cp_from_const (num 0) (num 72)) = PPanic.
Proof. split; [apply e_is_in_curve_iff; vm_compute; reflexivity|]. split; [apply neqb_eq; vm_compute; reflexivity|vm_compute; reflexivity]. Qed.
