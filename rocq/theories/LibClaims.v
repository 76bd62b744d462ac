(** The Poseidon parameters of the repository give bijective permutations. *)

From Verif Require Export PermClaims SeedClaims.
From Verif Require Export PoseidonInv.
Open Scope num_scope.

Section Mat.
Context {p : positive}.
Notation F := (Num p).
Add Ring mat_ring : (@num_ring p) (morphism (@num_morph p), constants [num_cst], power_tac (@num_power p) [num_pow_cst]).
(** The combination of the rows of [b] with the coefficients [a], of width [t]. *)
Fixpoint vadd (x y : list F) : list F := match x, y with a :: x, b :: y => (a + b) :: vadd x y | _, _ => [] end.
Fixpoint vcomb (t : nat) (a : list F) (b : list (list F)) : list F :=
  match a, b with x :: a, r :: b => vadd (map (nmul x) r) (vcomb t a b) | _, _ => repeat 0 t end.
Lemma vadd_length x y : length x = length y -> length (vadd x y) = length x.
Proof. revert y. induction x as [|a x IH]; intros [|b y] E; cbn in *; try lia. f_equal. apply IH. lia. Qed.
Lemma vcomb_length t a b : Forall (fun r => length r = t) b -> length (vcomb t a b) = t.
Proof.
  revert b. induction a as [|x a IH]; intros [|r b] H; cbn [vcomb]; try apply repeat_length. inversion H; subst.
  rewrite vadd_length; rewrite map_length; auto. symmetry. auto.
Qed.
Lemma dot_cons a x b y : dot (a :: x) (b :: y) = a * b + dot x y :> F.
Proof. reflexivity. Qed.
Lemma dot_vadd x : forall y st : list F, length x = length y -> dot (vadd x y) st = dot x st + dot y st.
Proof.
  induction x as [|a x IH]; intros [|b y] [|c st] E; cbn in E; try lia; cbn [vadd]; try (unfold dot; cbn; ring).
  rewrite !dot_cons, IH by lia. ring.
Qed.
Lemma dot_scale k (x st : list F) : dot (map (nmul k) x) st = k * dot x st.
Proof. revert st. induction x as [|a x IH]; intros [|c st]; cbn [map]; try (unfold dot; cbn; ring). rewrite !dot_cons, IH. ring. Qed.
Lemma dot_zeros t (st : list F) : dot (repeat 0 t) st = 0.
Proof. revert st. induction t as [|t IH]; intros [|c st]; cbn [repeat]; try reflexivity. rewrite dot_cons, IH. ring. Qed.
Lemma dot_mvec t a b (st : list F) : Forall (fun r => length r = t) b -> dot a (mvec b st) = dot (vcomb t a b) st.
Proof.
  intros H. revert a. induction H as [|r b L H IH]; intros [|x a]; cbn [vcomb mvec map]; try (rewrite dot_zeros; reflexivity).
  rewrite dot_cons. fold (mvec b st). rewrite IH, dot_vadd, dot_scale by (rewrite map_length, vcomb_length; auto). ring.
Qed.
Definition unit_row (t i : nat) : list F := map (fun j => if Nat.eqb i j then 1 else 0) (seq 0 t).
Lemma dot_unit (st : list F) i : (i < length st)%nat -> dot (unit_row (length st) i) st = nth i st 0.
Proof.
  unfold unit_row. revert i. induction st as [|c st IH]; intros i L; [cbn in L; lia|]. cbn [length seq map]. rewrite dot_cons, <- seq_shift, map_map.
  destruct i as [|i]; cbn [Nat.eqb nth].
  - assert (Z : forall n k, map (fun j => if Nat.eqb 0 (S j) then 1 else 0) (seq k n) = repeat (0 : F) n).
    { induction n as [|n IHn]; intros k; cbn; f_equal; auto. }
    rewrite Z, dot_zeros. ring.
  - cbn in L. rewrite IH by lia. ring.
Qed.
Lemma mvec_id t a b (st : list F) : length st = t -> length a = t -> Forall (fun r => length r = t) b ->
  (forall i, (i < t)%nat -> vcomb t (nth i a []) b = unit_row t i) -> mvec a (mvec b st) = st.
Proof.
  intros L La Hb H. apply nth_ext with (d := 0) (d' := 0); [unfold mvec; rewrite map_length; lia|].
  intros i Hi. unfold mvec in Hi. rewrite map_length in Hi. unfold mvec at 1.
  rewrite (nth_indep _ 0 (dot [] (mvec b st))) by (rewrite map_length; lia). rewrite (map_nth (fun r => dot r (mvec b st)) a [] i), (dot_mvec t), H by (auto; lia). subst t. apply dot_unit. lia.
Qed.

(** The same combination on integers. *)
Fixpoint zadd (x y : list Z) : list Z := match x, y with a :: x, b :: y => (a + b)%Z :: zadd x y | _, _ => [] end.
Fixpoint zcomb (t : nat) (a : list Z) (b : list (list Z)) : list Z :=
  match a, b with x :: a, r :: b => zadd (map (Z.mul x) r) (zcomb t a b) | _, _ => repeat 0%Z t end.
Definition zunit (R : Z) (t i : nat) : list Z := map (fun j => if Nat.eqb i j then R else 0%Z) (seq 0 t).
Definition is_unit (R : Z) (t i : nat) (x : list Z) : bool :=
  if list_eq_dec Z.eq_dec (map (fun z => z mod Zpos p)%Z x) (map (fun z => z mod Zpos p)%Z (zunit R t i)) then true else false.
Lemma vadd_num x : forall y, vadd (map num x) (map num y) = map (@num p) (zadd x y).
Proof. induction x as [|a x IH]; intros [|b y]; cbn; auto. rewrite IH, num_add. reflexivity. Qed.
Lemma vcomb_num t a : forall b, vcomb t (map num a) (map (map num) b) = map (@num p) (zcomb t a b).
Proof.
  induction a as [|x a IH]; intros [|r b]; cbn [map vcomb zcomb]; try (rewrite map_repeat; reflexivity).
  rewrite IH, <- vadd_num, !map_map. f_equal. apply map_ext. intros z. now rewrite num_mul.
Qed.
Lemma vadd_scale k x : forall y : list F, vadd (map (nmul k) x) (map (nmul k) y) = map (nmul k) (vadd x y).
Proof. induction x as [|a x IH]; intros [|b y]; cbn; auto. rewrite IH. f_equal. ring. Qed.
Lemma vcomb_scale_l k t a : forall b, vcomb t (map (nmul k) a) b = map (nmul k) (vcomb t a b).
Proof.
  assert (Z : map (nmul k) (repeat 0 t) = repeat 0 t) by (rewrite map_repeat; f_equal; ring).
  induction a as [|x a IH]; intros [|r b]; cbn [map vcomb]; auto. rewrite IH, <- vadd_scale. f_equal. rewrite map_map. apply map_ext. intros; ring.
Qed.
Lemma vcomb_scale_r k t a : forall b, vcomb t a (map (map (nmul k)) b) = map (nmul k) (vcomb t a b).
Proof.
  assert (Z : map (nmul k) (repeat 0 t) = repeat 0 t) by (rewrite map_repeat; f_equal; ring).
  induction a as [|x a IH]; intros [|r b]; cbn [map vcomb]; auto. rewrite IH, <- vadd_scale. f_equal. rewrite !map_map. apply map_ext. intros; ring.
Qed.
Lemma is_unit_ok R t i x k : is_unit R t i x = true -> k * num R = 1 -> map (nmul k) (map num x) = unit_row t i.
Proof.
  intros H HR. unfold is_unit in H. destruct list_eq_dec as [E|]; [|discriminate].
  assert (X : map (@num p) x = map num (zunit R t i)).
  { apply (f_equal (map (@num p))) in E. rewrite !map_map in E. rewrite <- (map_ext (fun z => @num p (z mod Zpos p)) num) by (intros; apply num_eq_mod, Zmod_mod).
    rewrite E. apply map_ext. intros; apply num_eq_mod, Zmod_mod. }
  rewrite X. unfold zunit, unit_row. rewrite !map_map. apply map_ext. intros j. destruct Nat.eqb; [exact HR|]. change (num 0 : F) with (0 : F). ring.
Qed.
(** [n] over the drawn matrix [m] is an inverse of the matrix it represents. *)
Definition inv_check (R : Z) (t : nat) (m n : list (list Z)) : bool :=
  Nat.eqb (length m) t && Nat.eqb (length n) t && forallb (fun r => Nat.eqb (length r) t) m && forallb (fun r => Nat.eqb (length r) t) n &&
  forallb (fun i => is_unit R t i (zcomb t (nth i n []) m) && is_unit R t i (zcomb t (nth i m []) n)) (seq 0 t).
Lemma inv_check_ok (Hp : Prime p) R t m n st : (num R : F) <> 0 -> inv_check R t m n = true -> length st = t ->
  let a := map (map (fun z => fdiv (num z) (num R : F))) m in let b := map (map (@num p)) n in
  length b = t /\ mvec b (mvec a st) = st /\ mvec a (mvec b st) = st.
Proof.
  intros HR C L a b. unfold inv_check in C. rewrite !Bool.andb_true_iff in C. destruct C as [[[[C1 C2] C3] C4] C5].
  apply Nat.eqb_eq in C1, C2. rewrite forallb_forall in C3, C4, C5.
  set (k := finv (num R : F)). assert (Hk : k * num R = 1) by now apply (finv_l Hp).
  assert (A : a = map (map (nmul k)) (map (map num) m)).
  { unfold a. rewrite map_map. apply map_ext. intros r. rewrite map_map. apply map_ext. intros z. unfold fdiv, k. ring. }
  assert (Lm : Forall (fun r => length r = t) m) by (apply Forall_forall; intros r Hr; apply Nat.eqb_eq; auto).
  assert (Ln : Forall (fun r => length r = t) n) by (apply Forall_forall; intros r Hr; apply Nat.eqb_eq; auto).
  assert (N : forall (l : list (list Z)) i, nth i (map (map (@num p)) l) [] = map num (nth i l [])) by (intros; exact (map_nth (map (@num p)) l [] i)).
  split; [unfold b; now rewrite map_length|]. split.
  - apply (mvec_id t); auto; [unfold b; now rewrite map_length| |].
    + unfold a. rewrite Forall_map. eapply Forall_impl; [|exact Lm]. cbn. intros r. now rewrite map_length.
    + intros i Hi. rewrite A, vcomb_scale_r. unfold b. rewrite N, vcomb_num. apply (is_unit_ok R); auto.
      specialize (C5 i ltac:(apply in_seq; lia)). apply Bool.andb_true_iff in C5. apply C5.
  - apply (mvec_id t); auto; [unfold a; now rewrite map_length| |].
    + unfold b. rewrite Forall_map. eapply Forall_impl; [|exact Ln]. cbn. intros r. now rewrite map_length.
    + intros i Hi. rewrite A. replace (nth i (map (map (nmul k)) (map (map num) m)) []) with (map (nmul k) (map num (nth i m [])))
        by (rewrite <- N; symmetry; exact (map_nth (map (nmul k)) (map (map num) m) [] i)).
      rewrite vcomb_scale_l. unfold b. rewrite vcomb_num. apply (is_unit_ok R); auto.
      specialize (C5 i ltac:(apply in_seq; lia)). apply Bool.andb_true_iff in C5. apply C5.
Qed.
(** The drawn matrix as integers *)
Definition raw_matrix (fuel t f q : nat) : option (list (list Z)) :=
  match sb_new_with_salt (pp_salt t f q) with
  | Panic => None
  | Ok s => match raws (p := p) (f + q) fuel true s with
            | None => None
            | Some (_, s) => match raw_rows (p := p) t t fuel true s with None => None | Some (m, _) => Some m end
            end
  end.
Lemma raw_matrix_ok fuel t f q m : raw_matrix fuel t f q = Some m ->
  exists P : PoseidonParams p, pp_new fuel true t f q = Ok (Some P) /\ ppm P = map (map of_mont) m /\ ppt P = t /\ ppf P = f /\ ppp P = q.
Proof.
  unfold raw_matrix, pp_new. destruct sb_new_with_salt as [s0|]; [|discriminate]. cbn [rbind].
  destruct raws as [[c s1]|] eqn:E1; [|discriminate]. rewrite (raws_ok _ _ _ _ _ _ E1). cbn [rbind].
  destruct raw_rows as [[m' s2]|] eqn:E2; [|discriminate]. rewrite (raw_rows_ok _ _ _ _ _ _ _ E2). cbn [rbind option_map fst].
  intros E. assert (m' = m) by congruence. subst m'. eexists. split; [reflexivity|]. cbn. auto.
Qed.
End Mat.

(** What is drawn for the parameter sets of the repository *)
Lemma bn_R_nz : (num (2 ^ 256) : Num bn_r) <> 0.
Proof. intros X. apply (f_equal nval) in X. vm_compute in X. discriminate. Qed.
Lemma raw_4_ok : raw_matrix (p := bn_r) 64 4 8 54 = Some raw_4.
Proof. vm_compute. reflexivity. Qed.
Lemma raw_3_ok : raw_matrix (p := bn_r) 64 3 8 53 = Some raw_3.
Proof. vm_compute. reflexivity. Qed.
Lemma raw_2_ok : raw_matrix (p := bn_r) 64 2 8 53 = Some raw_2.
Proof. vm_compute. reflexivity. Qed.
(** The parameter sets of the repository: the permutation is a bijection, and the hash is its first element. *)
Lemma claim_C65_library : forall tfq, In tfq [(4, 8, 54); (3, 8, 53); (2, 8, 53)]%nat -> exists P : PoseidonParams bn_r,
  let t := fst (fst tfq) in
  pp_new 64 true t (snd (fst tfq)) (snd tfq) = Ok (Some P) /\ ppt P = t /\ pp_ok P /\ bijective t (permutation P) /\
  forall ins, (0 < length ins <= t)%nat -> poseidon P ins = Ok (hd 0 (permutation P (ins ++ repeat 0 (t - length ins)))).
Proof.
  assert (G : forall t f q m n, (8 * Z.of_nat ((f + q + t * t) * 64) <= 8 * (2 ^ 64 - 1))%Z ->
    raw_matrix (p := bn_r) 64 t f q = Some m -> inv_check (p := bn_r) (2 ^ 256) t m n = true ->
    exists P : PoseidonParams bn_r, pp_new 64 true t f q = Ok (Some P) /\ ppt P = t /\ pp_ok P /\ bijective t (permutation P) /\
      forall ins, (0 < length ins <= t)%nat -> poseidon P ins = Ok (hd 0 (permutation P (ins ++ repeat 0 (t - length ins))))).
  { intros t f q m n R E C.
    destruct (raw_matrix_ok _ _ _ _ _ E) as [P [EP [Em [Et [Ef Eq]]]]]. exists P. split; auto. split; auto.
    destruct (claim_C60_dimensions bn_r 64 true t f q P (fun _ => R) EP) as [_ [_ [_ [L1 [L2 [L3 _]]]]]].
    assert (HP : pp_ok P). { split; [lia|]. split; [lia|]. now rewrite Et. }
    split; auto. split.
    - rewrite <- Et. apply (claim_C65_bijective bn_r bn_r_prime P (map (map num) n)); auto; [vm_compute; discriminate| |].
      + rewrite Et. destruct (inv_check_ok bn_r_prime _ _ _ _ (repeat 0 t) bn_R_nz C (repeat_length _ _)) as [X _]. exact X.
      + intros st Ls. rewrite Et in Ls. destruct (inv_check_ok bn_r_prime _ _ _ _ st bn_R_nz C Ls) as [_ X]. rewrite Em. exact X.
    - intros ins Li. rewrite <- Et. apply (claim_C65_permutation bn_r bn_r_prime P ins HP). lia. }
  intros tfq [<-|[<-|[<-|[]]]]; cbn [fst snd].
  - apply (G _ _ _ raw_4 inv_4); [vm_compute; discriminate|exact raw_4_ok|vm_compute; reflexivity].
  - apply (G _ _ _ raw_3 inv_3); [vm_compute; discriminate|exact raw_3_ok|vm_compute; reflexivity].
  - apply (G _ _ _ raw_2 inv_2); [vm_compute; discriminate|exact raw_2_ok|vm_compute; reflexivity].
Qed.
