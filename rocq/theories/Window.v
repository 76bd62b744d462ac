(** Checking that the windows of a fixed-base multiplication are regular (the
    condition of the constraint counts in CEccConst.v). *)

From Verif Require Export CEccConst.
From Verif Require Import CurveOrder CurveCert.
Open Scope Z_scope.

(** [ws] gives, window by window, the steps from R to 2R, 4R, 5R, 6R and 8R. *)
Fixpoint windows_check (p A B : Z) (ws : list (list mstep)) (k u v : Z) : bool :=
  match ws with
  | [] => true
  | w :: ws =>
      match mprog_run p A B w [(k, u, v)] with
      | Some [(k8, u8, v8); (k6, u6, v6); (k5, u5, v5); _; (k2, u2, v2); (k1, u1, v1)] =>
          (k1 =? k) && (k2 =? 2 * k) && (k5 =? 5 * k) && (k6 =? 6 * k) && (k8 =? 8 * k) &&
          negb (eqm p (u6 - u5 - u2 + u1) 0) && negb (eqm p (v6 - v5 - v2 + v1) 0) && windows_check p A B ws k8 u8 v8
      | _ => false
      end
  end.

Section Window.
Context {p l : positive} (J : JubJub p l) (K : jubjub_ok J).
Let Hp : prime (Zpos p) := j_p _ K.
Let Hm1 := j_m1 _ K.
Let Hd := j_d _ K.
Notation F := (Num p).
Notation d := (jd J).
Variables A B : Z.
Hypothesis EA : ja J = num A.
Hypothesis EB : jb J = num B.
Open Scope num_scope.
Set Default Proof Using "Type*".

Lemma HMont : mont_ok d (num A : F) (num B).
Proof. rewrite <- EA, <- EB. exact (j_mont _ K). Qed.
Notation regok := (reg_ok d A B (jg J)).

Lemma reg_entry k w c u v cx cy (i : nat) : regok (w, u, v) -> (i < 8)%nat -> w = ((Z.of_nat i + 1) * k)%Z ->
  istable J (emul d k (jg J)) cx cy -> c = mkM (nth i cx 0) (nth i cy 0) -> c = mkM (num u) (num v).
Proof.
  intros [_ R] Hi -> [_ [_ T]] ->. specialize (T i Hi). rewrite EA, EB in T.
  rewrite <- (em_mul J K) in T by apply (j_g _ K).
  apply (mrel_inj Hp d (num A) (num B) Hm1 Hd HMont (emul d ((Z.of_nat i + 1) * k) (jg J))); auto.
  apply (onc_em J K), (j_g _ K).
Qed.

Lemma windows_ok : forall ws k u v, regok (k, u, v) -> windows_check (Zpos p) A B ws k u v = true ->
  forall i, (i < length ws)%nat -> wnd J (emul d (k * 8 ^ Z.of_nat i) (jg J)).
Proof.
  induction ws as [|w ws IH]; intros k u v R; cbn [windows_check length]; [intros _ i Hi; lia|].
  destruct (mprog_run _ _ _ _ _) as [rs|] eqn:E; [|discriminate].
  assert (Fr : Forall regok rs). { eapply (mprog_ok Hp d A B Hm1 Hd HMont (jg J) (j_g _ K)); [|exact E]. constructor; auto. }
  destruct rs as [|[[k8 u8] v8] [|[[k6 u6] v6] [|[[k5 u5] v5] [|r4 [|[[k2 u2] v2] [|[[k1 u1] v1] [|? ?]]]]]]]; try discriminate.
  rewrite !Bool.andb_true_iff, !Bool.negb_true_iff, !Z.eqb_eq.
  intros [[[[[[[E1 E2] E5] E6] E8] Nu] Nv] C].
  apply Forall_cons_iff in Fr. destruct Fr as [R8 Fr]. apply Forall_cons_iff in Fr. destruct Fr as [R6 Fr].
  apply Forall_cons_iff in Fr. destruct Fr as [R5 Fr]. apply Forall_cons_iff in Fr. destruct Fr as [_ Fr].
  apply Forall_cons_iff in Fr. destruct Fr as [R2 Fr]. apply Forall_cons_iff in Fr. destruct Fr as [R1 _].
  intros [|i] Hi.
  - rewrite Z.pow_0_r, Z.mul_1_r. intros cx cy T.
    pose proof (reg_entry k k6 _ u6 v6 cx cy 5%nat R6 ltac:(lia) ltac:(lia) T eq_refl) as X6.
    pose proof (reg_entry k k5 _ u5 v5 cx cy 4%nat R5 ltac:(lia) ltac:(lia) T eq_refl) as X5.
    pose proof (reg_entry k k2 _ u2 v2 cx cy 1%nat R2 ltac:(lia) ltac:(lia) T eq_refl) as X2.
    pose proof (reg_entry k k1 _ u1 v1 cx cy 0%nat R1 ltac:(lia) ltac:(lia) T eq_refl) as X1.
    assert (NE : forall a b c e, eqm (Zpos p) (a - b - c + e) 0 = false -> (num a - num b - num c + num e : F) <> 0).
    { intros a b c e H X. rewrite (eqm_neq (p := p)) in H by auto. apply H. rewrite num_add, !num_sub. rewrite X. reflexivity. }
    apply NE in Nu. apply NE in Nv. unfold shift_neq.
    assert (M : forall a b a' b' : F, mkM a b = mkM a' b' -> a = a' /\ b = b') by (intros a b a' b' H; split; congruence).
    apply M in X6, X5, X2, X1. destruct X6 as [-> ->], X5 as [-> ->], X2 as [-> ->], X1 as [-> ->].
    split; intros [H _]; auto.
  - replace (k * 8 ^ Z.of_nat (S i))%Z with (k8 * 8 ^ Z.of_nat i)%Z; [apply (IH k8 u8 v8 R8 C); lia|].
    rewrite E8, Nat2Z.inj_succ, Z.pow_succ_r by lia. ring.
Qed.
End Window.
Unset Default Proof Using.
