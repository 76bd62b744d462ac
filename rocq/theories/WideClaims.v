(** Hashing as many numbers as the state is wide: the permutation can be run
    backwards from any hash. And the matrices of the repository's parameter sets:
    every square submatrix is invertible. *)

From Verif Require Export LibClaims.
Open Scope num_scope.

(** ** The permutation backwards *)
Section Back.
Context {p : positive}.
Notation F := (Num p).
Add Ring wide_ring : (@num_ring p) (morphism (@num_morph p), constants [num_cst], power_tac (@num_power p) [num_pow_cst]).

(** The rounds backwards, from the inverse matrix [n] and an exponent [e] taking fifth roots. *)
Definition full_back (n : list (list F)) (e : N) (st : list F) (c : F) : list F :=
  map (fun x => x - c) (map (fun x => npow x e) (mvec n st)).
Definition partial_back (n : list (list F)) (e : N) (st : list F) (c : F) : list F :=
  map (fun x => x - c) (match mvec n st with [] => [] | x :: xs => npow x e :: xs end).
Definition backwards (n : list (list F)) (e : N) (P : PoseidonParams p) (st : list F) : list F :=
  let a := (ppf P / 2)%nat in let b := ppp P in
  let st := fold_left (full_back n e) (rev (skipn b (skipn a (ppc P)))) st in
  let st := fold_left (partial_back n e) (rev (firstn b (skipn a (ppc P)))) st in
  fold_left (full_back n e) (rev (firstn a (ppc P))) st.
(** What [n] and [e] have to satisfy. *)
Definition inverts (P : PoseidonParams p) (n : list (list F)) (e : N) : Prop :=
  length n = ppt P /\ (forall st, length st = ppt P -> mvec n (mvec (ppm P) st) = st /\ mvec (ppm P) (mvec n st) = st) /\
  forall x : F, npow (x * x * x * x * x) e = x /\ (let y := npow x e in y * y * y * y * y) = x.

Definition undoes {A} (t : nat) (f g : list F -> A -> list F) : Prop :=
  forall st c, length st = t -> length (f st c) = t /\ length (g st c) = t /\ g (f st c) c = st /\ f (g st c) c = st.
Lemma undoes_fold {A} t (f g : list F -> A -> list F) : undoes t f g -> forall l st, length st = t ->
  length (fold_left f l st) = t /\ length (fold_left g (rev l) st) = t /\
  fold_left g (rev l) (fold_left f l st) = st /\ fold_left f l (fold_left g (rev l) st) = st.
Proof.
  intros H. induction l as [|c l IH]; intros st L; [cbn; auto|]. cbn [rev fold_left]. rewrite !fold_left_app. cbn [fold_left].
  destruct (H st c L) as [A1 [A2 [A3 A4]]]. destruct (IH (f st c) A1) as [B1 [B2 [B3 B4]]].
  destruct (IH st L) as [C1 [C2 [C3 C4]]]. destruct (H (fold_left g (rev l) st) c C2) as [D1 [D2 [D3 D4]]].
  rewrite B3, D4. auto.
Qed.
Lemma map_undo (f g : F -> F) st : (forall x, g (f x) = x) -> map g (map f st) = st.
Proof. intros H. rewrite map_map, (map_ext _ (fun x => x)) by auto. apply map_id. Qed.
Lemma full_undoes P n e : pp_ok P -> inverts P n e -> undoes (ppt P) (full_step (ppm P)) (full_back n e).
Proof.
  intros [_ [Lm _]] [Ln [Hn He]] st c L. unfold full_step, full_back. repeat split.
  - now rewrite mvec_length.
  - now rewrite !map_length, mvec_length.
  - rewrite (proj1 (Hn (map fifth (map (fun x => x + c) st)) ltac:(now rewrite !map_length))). rewrite (map_undo fifth (fun x => npow x e)) by (intros; apply He).
    apply map_undo. intros; ring.
  - rewrite (map_undo (fun x => x - c) (fun x => x + c)) by (intros; ring).
    rewrite (map_undo (fun x => npow x e) fifth) by (intros; apply He). now apply Hn.
Qed.
Lemma partial_undoes P n e : pp_ok P -> inverts P n e -> undoes (ppt P) (partial_step (ppm P)) (partial_back n e).
Proof.
  intros [_ [Lm _]] [Ln [Hn He]] st c L. unfold partial_step, partial_back. repeat split.
  - now rewrite mvec_length.
  - rewrite map_length. assert (X : length (mvec n st) = ppt P) by (now rewrite mvec_length). destruct (mvec n st); exact X.
  - assert (X : forall y : list F, length (match y with [] => [] | x :: xs => fifth x :: xs end) = length y) by (intros []; reflexivity).
    rewrite (proj1 (Hn (match map (fun x => x + c) st with [] => [] | x :: xs => fifth x :: xs end) ltac:(now rewrite X, map_length))). destruct st as [|x st]; [reflexivity|]. cbn [map].
    unfold fifth. rewrite (proj1 (He _)). f_equal; [ring|]. apply map_undo. intros; ring.
  - rewrite (map_undo (fun x => x - c) (fun x => x + c)) by (intros; ring).
    rewrite <- (proj2 (Hn st L)) at 2. f_equal. destruct (mvec n st) as [|x xs]; [reflexivity|]. f_equal. apply He.
Qed.
Lemma backwards_ok P n e st : pp_ok P -> inverts P n e -> length st = ppt P ->
  length (backwards n e P st) = ppt P /\ backwards n e P (permutation P st) = st /\ permutation P (backwards n e P st) = st.
Proof.
  intros HP HI L. unfold backwards, permutation, schedule. cbn zeta.
  set (l1 := firstn (ppf P / 2) (ppc P)). set (l2 := firstn (ppp P) _). set (l3 := skipn (ppp P) _).
  pose proof (undoes_fold (ppt P) _ _ (full_undoes P n e HP HI)) as A. pose proof (undoes_fold (ppt P) _ _ (partial_undoes P n e HP HI)) as B.
  split; [|split].
  - apply A, B, A, L.
  - set (s1 := fold_left _ l1 st). assert (L1 : length s1 = ppt P) by now apply A.
    set (s2 := fold_left _ l2 s1). assert (L2 : length s2 = ppt P) by now apply B.
    rewrite (proj1 (proj2 (proj2 (A l3 s2 L2)))). unfold s2. rewrite (proj1 (proj2 (proj2 (B l2 s1 L1)))). unfold s1. now apply A.
  - set (s3 := fold_left _ (rev l3) st). assert (L3 : length s3 = ppt P) by now apply A.
    set (s2 := fold_left _ (rev l2) s3). assert (L2 : length s2 = ppt P) by now apply B.
    rewrite (proj2 (proj2 (proj2 (A l1 s2 L2)))). unfold s2. rewrite (proj2 (proj2 (proj2 (B l2 s3 L3)))). unfold s3. now apply A.
Qed.
End Back.

Section PrimeClaims.
Variable p : positive.
Hypothesis Hp : Prime p.
Set Default Proof Using "Hp".
Notation F := (Num p).

(* C82 *)
(** Any number [h] and any [t - 1] further numbers give, by running the rounds backwards, [t] numbers whose
    hash is [h]; all inputs of full width with hash [h] arise this way. *)
Lemma claim_C82_preimage : forall (P : PoseidonParams p) (n : list (list (Num p))) (e : N), pp_ok P -> inverts P n e ->
  (forall h rest, S (length rest) = ppt P -> let ins := backwards n e P (h :: rest) in length ins = ppt P /\ poseidon P ins = Ok h) /\
  (forall ins h, length ins = ppt P -> poseidon P ins = Ok h -> exists rest, S (length rest) = ppt P /\ ins = backwards n e P (h :: rest)).
Proof.
  intros P n e HP HI. split.
  - intros h rest L ins. destruct (backwards_ok P n e (h :: rest) HP HI L) as [A [_ B]]. split; [exact A|].
    destruct (claim_C65_permutation p Hp P ins HP) as [E _]; [unfold ins; lia|].
    rewrite E. unfold ins at 2. rewrite A, Nat.sub_diag. cbn [repeat]. rewrite app_nil_r. unfold ins. now rewrite B.
  - intros ins h L E. destruct (Nat.eq_dec (ppt P) 0) as [Z|NZ].
    { destruct ins; [|cbn in L; lia]. unfold poseidon in E. cbn [length] in E. destruct (0 <=? ppt P)%nat; discriminate. }
    destruct (claim_C65_permutation p Hp P ins HP ltac:(lia)) as [E' Lp]. cbn zeta in E', Lp.
    rewrite L, Nat.sub_diag in E', Lp. cbn [repeat] in E', Lp. rewrite app_nil_r in E', Lp.
    destruct (backwards_ok P n e ins HP HI L) as [_ [B _]].
    destruct (permutation P ins) as [|x rest] eqn:Ex; [cbn in Lp; lia|]. cbn [hd] in E'. exists rest. split; [exact Lp|].
    assert (x = h) by congruence. subst x. now rewrite B.
Qed.
(** So every input of full width (at least 2) has a second one with the same hash, given by [backwards]. *)
Lemma claim_C82_second : forall (P : PoseidonParams p) (n : list (list (Num p))) (e : N) ins h, pp_ok P -> inverts P n e -> (2 <= ppt P)%nat ->
  length ins = ppt P -> poseidon P ins = Ok h -> exists rest, let ins' := backwards n e P (h :: rest) in
  length ins' = ppt P /\ ins' <> ins /\ poseidon P ins' = Ok h.
Proof.
  intros P n e ins h HP HI Ht L E. destruct (claim_C82_preimage P n e HP HI) as [A B].
  destruct (B ins h L E) as [rest [Lr ->]]. destruct rest as [|x rest]; [cbn in Lr; lia|].
  exists (x + 1 :: rest). cbn zeta. destruct (A h (x + 1 :: rest) Lr) as [A1 A2]. split; [exact A1|]. split; [|exact A2].
  intros X. apply (f_equal (permutation P)) in X.
  rewrite (proj2 (proj2 (backwards_ok P n e (h :: x + 1 :: rest) HP HI Lr))), (proj2 (proj2 (backwards_ok P n e (h :: x :: rest) HP HI Lr))) in X.
  assert (Y : x + 1 = x) by congruence. clear -Y Hp. apply (n1_neq_n0 Hp).
  assert (x + 1 - x = x - x) as Z by now rewrite Y. pose proof (@num_ring p) as R.
  rewrite !(Rsub_def R), (Ropp_def R), <- (Radd_assoc R), (Radd_comm R 1), (Radd_assoc R), (Ropp_def R), (Radd_0_l R) in Z. exact Z.
Qed.
(** Merkle trees over a state of width 2: every number is the root of a proof of every path. *)
Lemma claim_C82_root : forall (P : PoseidonParams p) (n : list (list (Num p))) (e : N) (path : list bool) root, pp_ok P -> inverts P n e -> ppt P = 2%nat ->
  exists leaf sibling, length sibling = length path /\ poseidon_merkle_proof_root P leaf sibling path = Ok root.
Proof.
  intros P n e path root HP HI Ht. destruct (claim_C82_preimage P n e HP HI) as [A _].
  assert (AP : forall l1 l2 x, merkle_proof_root P x (l1 ++ l2) = (y <-? merkle_proof_root P x l1 ; merkle_proof_root P y l2)).
  { induction l1 as [|[b s] l1 IH]; intros l2 x; [reflexivity|]. cbn [app merkle_proof_root]. destruct poseidon; cbn [rbind]; auto. }
  revert root. induction path as [|b path IH] using rev_ind; intros root; [exists root, []; auto|].
  destruct (A root [0] ltac:(now rewrite Ht)) as [L1 E1]. cbn zeta in L1, E1. rewrite Ht in L1.
  destruct (backwards n e P [root; 0]) as [|u [|v [|? ?]]]; cbn in L1; try lia.
  destruct (IH (if b then v else u)) as [leaf [sib [Ls Es]]]. exists leaf, (sib ++ [if b then u else v]).
  rewrite !app_length, Ls. split; [reflexivity|]. unfold poseidon_merkle_proof_root in *.
  assert (C : combine (path ++ [b]) (sib ++ [if b then u else v]) = combine path sib ++ [(b, if b then u else v)]).
  { clear -Ls. revert sib Ls. induction path as [|a path IH]; intros [|s sib] L; cbn in *; try lia; auto. f_equal. apply IH. lia. }
  rewrite C, AP, Es. cbn [rbind merkle_proof_root]. destruct b; now rewrite E1.
Qed.
End PrimeClaims.
Unset Default Proof Using.

(** The parameter sets of the repository *)
Lemma lib_set t f q m n : (8 * Z.of_nat ((f + q + t * t) * 64) <= 8 * (2 ^ 64 - 1))%Z ->
  raw_matrix (p := bn_r) 64 t f q = Some m -> inv_check (p := bn_r) (2 ^ 256) t m n = true ->
  exists (P : PoseidonParams bn_r) (e : N), pp_new 64 true t f q = Ok (Some P) /\ ppt P = t /\ pp_ok P /\ ppm P = map (map of_mont) m /\
    inverts P (map (map num) n) e.
Proof.
  intros R E C. destruct (raw_matrix_ok _ _ _ _ _ E) as [P [EP [Em [Et [Ef Eq]]]]].
  destruct (fifth_root bn_r_prime ltac:(vm_compute; discriminate)) as [e He].
  destruct (claim_C60_dimensions bn_r 64 true t f q P (fun _ => R) EP) as [_ [_ [_ [L1 [L2 [L3 _]]]]]].
  exists P, e. split; auto. split; auto. split. { split; [lia|]. split; [lia|]. now rewrite Et. }
  split; auto. rewrite <- Et in C. split; [|split].
  - apply (inv_check_ok bn_r_prime _ _ _ _ (repeat 0 (ppt P)) bn_R_nz C (repeat_length _ _)).
  - intros st Ls. destruct (inv_check_ok bn_r_prime _ _ _ _ st bn_R_nz C Ls) as [_ X]. rewrite Em. exact X.
  - exact He.
Qed.
Lemma claim_C82_library : forall tfq, In tfq [(4, 8, 54); (3, 8, 53); (2, 8, 53)]%nat -> exists (P : PoseidonParams bn_r) n e,
  pp_new 64 true (fst (fst tfq)) (snd (fst tfq)) (snd tfq) = Ok (Some P) /\ ppt P = fst (fst tfq) /\ pp_ok P /\ inverts P n e.
Proof.
  intros tfq [<-|[<-|[<-|[]]]]; cbn [fst snd].
  - destruct (lib_set 4 8 54 raw_4 inv_4) as [P [e [A1 [A2 [A3 [_ A4]]]]]]; [vm_compute; discriminate|exact raw_4_ok|vm_compute; reflexivity|].
    exists P, (map (map num) inv_4), e. auto.
  - destruct (lib_set 3 8 53 raw_3 inv_3) as [P [e [A1 [A2 [A3 [_ A4]]]]]]; [vm_compute; discriminate|exact raw_3_ok|vm_compute; reflexivity|].
    exists P, (map (map num) inv_3), e. auto.
  - destruct (lib_set 2 8 53 raw_2 inv_2) as [P [e [A1 [A2 [A3 [_ A4]]]]]]; [vm_compute; discriminate|exact raw_2_ok|vm_compute; reflexivity|].
    exists P, (map (map num) inv_2), e. auto.
Qed.
(** With the repository's parameters of width 4, one preimage of 0 for every choice of three numbers; with those of width 2, a
    membership proof of depth 3 for the root 7. *)
Lemma case_C82_preimage : exists (P : PoseidonParams bn_r) n e, pp_new 64 true 4 8 54 = Ok (Some P) /\ pp_ok P /\ inverts P n e /\
  forall a b c, let ins := backwards n e P [0; a; b; c] in length ins = 4%nat /\ poseidon P ins = Ok 0.
Proof.
  destruct (claim_C82_library (4, 8, 54)%nat) as [P [n [e [A1 [A2 [A3 A4]]]]]]; [cbn; auto|]. exists P, n, e. cbn [fst snd] in *.
  split; [exact A1|]. split; [exact A3|]. split; [exact A4|]. intros a b c.
  rewrite <- A2. apply (claim_C82_preimage bn_r bn_r_prime P n e A3 A4). now rewrite A2.
Qed.
Lemma case_C82_second : exists (P : PoseidonParams bn_r) n e ins h, pp_ok P /\ inverts P n e /\ (2 <= ppt P)%nat /\ length ins = ppt P /\ poseidon P ins = Ok h.
Proof.
  destruct case_C82_preimage as [P [n [e [E [A1 [A2 A3]]]]]]. destruct (A3 0 0 0) as [L H].
  assert (T : ppt P = 4%nat). { apply (claim_C60_dimensions bn_r 64 true 4 8 54 P); [intros _; vm_compute; discriminate|exact E]. }
  exists P, n, e, (backwards n e P [0; 0; 0; 0]), 0. rewrite T. auto 10 with arith.
Qed.
Lemma case_C82_root : exists (P : PoseidonParams bn_r) n e leaf sibling, pp_ok P /\ inverts P n e /\ ppt P = 2%nat /\
  length sibling = 3%nat /\ poseidon_merkle_proof_root P leaf sibling [true; false; true] = Ok (num 7).
Proof.
  destruct (claim_C82_library (2, 8, 53)%nat) as [P [n [e [A1 [A2 [A3 A4]]]]]]; [cbn; auto|]. cbn [fst snd] in *.
  destruct (claim_C82_root bn_r bn_r_prime P n e [true; false; true] (num 7) A3 A4 A2) as [leaf [sib [L E]]].
  exists P, n, e, leaf, sib. auto 10.
Qed.

(** ** Submatrices *)
Section Mds.
Context {p : positive}.
Notation F := (Num p).
Add Ring wide_ring2 : (@num_ring p) (morphism (@num_morph p), constants [num_cst], power_tac (@num_power p) [num_pow_cst]).

(** How many elements are not zero. *)
Definition weight (st : list F) : nat := length (filter (fun x => negb (nis_zero x)) st).

(** The elements of a list at the places marked. *)
Fixpoint keep {A} (b : list bool) (l : list A) : list A :=
  match b, l with true :: b, x :: l => x :: keep b l | false :: b, _ :: l => keep b l | _, _ => [] end.
Lemma keep_length {A} b : forall l : list A, length b = length l -> length (keep b l) = count_occ Bool.bool_dec b true.
Proof. induction b as [|[] b IH]; intros [|x l] E; cbn in *; try lia; auto; rewrite IH by lia; auto. Qed.
Lemma keep_map {A B} (f : A -> B) b : forall l, keep b (map f l) = map f (keep b l).
Proof. induction b as [|[] b IH]; intros [|x l]; cbn; auto; now rewrite IH. Qed.
Lemma keep_In {A} b (x : A) : forall l, In x (keep b l) -> In x l.
Proof. induction b as [|[] b IH]; intros [|y l] H; cbn in *; try tauto; try destruct H; auto. Qed.
Lemma keep_dot (st : list F) : forall row, length row = length st ->
  dot row st = dot (keep (map (fun x => negb (nis_zero x)) st) row) (keep (map (fun x => negb (nis_zero x)) st) st).
Proof.
  induction st as [|x st IH]; intros [|a row] L; cbn in L; try lia; [reflexivity|]. rewrite dot_cons, (IH row) by lia. cbn [map keep].
  destruct (nis_zero x) eqn:Z; cbn [negb]; [|now rewrite dot_cons]. apply nis_zero_eq in Z. subst x. ring.
Qed.
Lemma keep_mask {A} (f : A -> bool) (l : list A) : keep (map f l) l = filter f l.
Proof. induction l as [|x l IH]; cbn; auto. destruct (f x); now rewrite IH. Qed.

(** Elimination without division or exchange of rows, on integers modulo [p]. *)
Definition zrow (a : Z) (r : list Z) (row : list Z) : list Z :=
  match row with [] => [] | b :: s => map (fun xy => (a * snd xy - b * fst xy) mod Zpos p)%Z (combine r s) end.
Fixpoint regular (n : nat) (rows : list (list Z)) : bool :=
  match n, rows with
  | O, _ => true
  | S n, (a :: r) :: rows => negb (a mod Zpos p =? 0)%Z && regular n (map (zrow a r) rows)
  | _, _ => false
  end.
Lemma zrow_dot a b r : forall s (x : list F), length r = length x -> length s = length x ->
  dot (map num (zrow a r (b :: s))) x = num a * dot (map num s) x - num b * dot (map num r) x.
Proof.
  unfold zrow. induction r as [|u r IH]; intros [|v s] [|y x] L1 L2; cbn in L1, L2; try lia; [unfold dot; cbn; ring|].
  cbn [combine map fst snd]. rewrite !dot_cons, IH by lia. rewrite (proj1 (num_eq_mod ((a * v - b * u) mod Zpos p) (a * v - b * u)) (Zmod_mod _ _)).
  rewrite num_sub, !num_mul. ring.
Qed.
Lemma regular_ok (Hp : Prime p) n : forall rows (x : list F), regular n rows = true -> length x = n ->
  Forall (fun row => length row = n) rows -> Forall (fun row => dot (map num row) x = 0) rows -> x = repeat 0 n.
Proof using.
  induction n as [|n IH]; intros rows x R L Lr D; [now destruct x|].
  destruct x as [|x0 x]; [discriminate|]. destruct rows as [|[|a r] rows]; try discriminate. cbn [regular] in R.
  apply Bool.andb_true_iff in R as [R1 R2]. inversion_clear Lr as [|? ? L1 L2]. inversion_clear D as [|? ? D1 D2].
  cbn in L, L1. cbn [map] in D1. rewrite dot_cons in D1.
  assert (X : x = repeat 0 n).
  { apply (IH (map (zrow a r) rows)); auto.
    - rewrite Forall_map. eapply Forall_impl; [|exact L2]. cbn. intros [|b s] H; cbn in H; [discriminate|].
      unfold zrow. rewrite map_length, combine_length. lia.
    - rewrite Forall_map. rewrite Forall_forall in *. intros [|b s] Hin; [specialize (L2 _ Hin); discriminate|].
      specialize (L2 _ Hin). cbn in L2. rewrite zrow_dot by lia. specialize (D2 _ Hin). cbn [map] in D2. rewrite dot_cons in D2.
      assert (dot (map num s) x = - (num b * x0)) as -> by (transitivity (num b * x0 + dot (map num s) x - num b * x0); [ring|rewrite D2; ring]).
      assert (dot (map num r) x = - (num a * x0)) as -> by (transitivity (num a * x0 + dot (map num r) x - num a * x0); [ring|rewrite D1; ring]).
      ring. }
  cbn [repeat]. f_equal; [|exact X]. rewrite X in D1.
  assert (Z : forall row, dot row (repeat 0 n) = (0 : F)).
  { clear. induction n as [|n IH]; intros [|a row]; cbn [repeat]; try reflexivity. rewrite dot_cons, IH. ring. }
  rewrite Z in D1. apply Bool.negb_true_iff, Z.eqb_neq in R1.
  destruct (num_eq_dec x0 0) as [|N]; auto. exfalso. apply R1.
  assert (A : num a = (0 : F)).
  { destruct (num_eq_dec (num a : F) 0) as [|NA]; auto. exfalso. apply (nmul_nonzero Hp (num a) x0 NA N). rewrite <- D1. ring. }
  apply (f_equal nval) in A. rewrite nval_num in A. exact A.
Qed.

Fixpoint masks (t : nat) : list (list bool) :=
  match t with O => [[]] | S t => map (cons true) (masks t) ++ map (cons false) (masks t) end.
Lemma masks_all b : In b (masks (length b)).
Proof. induction b as [|[] b IH]; cbn; auto; apply in_or_app; [left|right]; now apply in_map. Qed.
(** Every square submatrix passes: rows and columns are chosen by masks, of the rows as many as there are columns. *)
Definition mds_check (t : nat) (m : list (list Z)) : bool :=
  Nat.eqb (length m) t && forallb (fun r => Nat.eqb (length r) t) m &&
  forallb (fun b => let k := count_occ Bool.bool_dec b true in
    forallb (fun z => (count_occ Bool.bool_dec z true <? k)%nat || regular k (map (keep b) (keep z m))) (masks t)) (masks t).
Lemma mds_check_ok (Hp : Prime p) t m (st : list F) : mds_check t m = true -> length st = t -> st <> repeat 0 t ->
  (t < weight st + weight (mvec (map (map num) m) st))%nat.
Proof using.
  intros C L N. unfold mds_check in C. rewrite !Bool.andb_true_iff in C. destruct C as [[C1 C2] C3].
  apply Nat.eqb_eq in C1. rewrite forallb_forall in C2, C3.
  set (b := map (fun x => negb (nis_zero x)) st). set (out := mvec (map (map num) m) st). set (z := map nis_zero out).
  assert (Lo : length out = t) by (unfold out; now rewrite mvec_length, map_length).
  assert (W : weight st = count_occ Bool.bool_dec b true).
  { unfold weight. rewrite <- keep_mask. apply keep_length. apply map_length. }
  assert (V : (weight out + count_occ Bool.bool_dec z true = t)%nat).
  { unfold weight, z. rewrite <- Lo. clear. induction out as [|x o IH]; cbn [filter map length count_occ]; auto.
    destruct (nis_zero x); cbn [negb count_occ length]; destruct Bool.bool_dec as [e|e]; try discriminate; try congruence; cbn [length]; lia. }
  destruct (le_lt_dec (weight st + weight out) t) as [B|]; [|assumption]. exfalso. apply N.
  specialize (C3 b). cbn zeta in C3. rewrite forallb_forall in C3.
  assert (Ib : In b (masks t)) by (rewrite <- L; unfold b; rewrite <- (map_length (fun x => negb (nis_zero x)) st); apply masks_all).
  assert (Iz : In z (masks t)) by (rewrite <- Lo; unfold z; rewrite <- (map_length nis_zero out); apply masks_all).
  specialize (C3 Ib z Iz). apply Bool.orb_true_iff in C3 as [C3|C3]; [apply Nat.ltb_lt in C3; lia|].
  set (k := count_occ Bool.bool_dec b true) in *.
  assert (X : keep b st = repeat 0 k).
  { apply (regular_ok Hp k (map (keep b) (keep z m))); auto.
    - apply keep_length. apply map_length.
    - rewrite Forall_map, Forall_forall. intros row Hr. apply keep_length. unfold b. rewrite map_length, L. symmetry. apply Nat.eqb_eq, C2.
      now apply (keep_In z).
    - rewrite Forall_map, Forall_forall. intros row Hr. rewrite <- keep_map.
      assert (Y : In row m /\ dot (map num row) st = 0).
      { unfold z, out, mvec in Hr. rewrite !map_map in Hr. rewrite keep_mask in Hr. apply filter_In in Hr. destruct Hr as [H1 H2]. split; auto. now apply nis_zero_eq. }
      destruct Y as [Y1 Y2]. unfold b. rewrite <- keep_dot; [exact Y2|]. rewrite map_length. transitivity t; [apply Nat.eqb_eq, C2, Y1|auto]. }
  assert (K : k = O).
  { destruct k as [|k']; auto. exfalso. unfold b in X. rewrite keep_mask in X. cbn [repeat] in X.
    assert (I : In 0 (filter (fun x : F => negb (nis_zero x)) st)) by (rewrite X; now left).
    apply filter_In in I. destruct I as [_ I]. rewrite (proj2 (nis_zero_eq 0)) in I by reflexivity. discriminate. }
  rewrite <- L. unfold weight in W. rewrite K in W. clear -W. induction st as [|x st IH]; cbn in *; auto.
  destruct (nis_zero x) eqn:Z; cbn in W; [|discriminate]. apply nis_zero_eq in Z. subst. f_equal. auto.
Qed.
(** Multiplying a matrix by a number that is not zero changes no weight. *)
Lemma weight_scale (Hp : Prime p) k (st : list F) : k <> 0 -> weight (map (nmul k) st) = weight st.
Proof using.
  intros K. unfold weight. induction st as [|x st IH]; auto. cbn [map filter].
  assert (E : nis_zero (k * x) = nis_zero x).
  { destruct (nis_zero x) eqn:Z; [apply nis_zero_eq; apply nis_zero_eq in Z; subst; ring|]. apply nis_zero_neq. apply nis_zero_neq in Z. now apply (nmul_nonzero Hp). }
  rewrite E. destruct (nis_zero x); cbn [negb length]; auto.
Qed.
End Mds.

(* C83 *)
(** In the parameter sets of the repository, the matrix spreads differences as much as possible: a state that is not zero and its
    product with the matrix have together more than [t] elements that are not zero. *)
Lemma claim_C83_library : forall tfq, In tfq [(4, 8, 54); (3, 8, 53); (2, 8, 53)]%nat -> exists P : PoseidonParams bn_r,
  let t := fst (fst tfq) in
  pp_new 64 true t (snd (fst tfq)) (snd tfq) = Ok (Some P) /\
  forall st, length st = t -> st <> repeat 0 t -> exists st', mix (ppm P) st = Ok st' /\ length st' = t /\ (t < weight st + weight st')%nat.
Proof.
  assert (G : forall t f q m n, (8 * Z.of_nat ((f + q + t * t) * 64) <= 8 * (2 ^ 64 - 1))%Z ->
    raw_matrix (p := bn_r) 64 t f q = Some m -> inv_check (p := bn_r) (2 ^ 256) t m n = true -> mds_check (p := bn_r) t m = true ->
    exists P : PoseidonParams bn_r, pp_new 64 true t f q = Ok (Some P) /\
    forall st, length st = t -> st <> repeat 0 t -> exists st', mix (ppm P) st = Ok st' /\ length st' = t /\ (t < weight st + weight st')%nat).
  { intros t f q m n R E C M. destruct (lib_set t f q m n R E C) as [P [e [EP [Et [HP [Em _]]]]]]. exists P. split; [exact EP|].
    intros st L N. exists (mvec (ppm P) st). split; [apply mix_mvec; congruence|].
    split; [rewrite mvec_length; destruct HP as [_ [X _]]; congruence|].
    assert (X : mvec (ppm P) st = map (nmul (finv (num (2 ^ 256)))) (mvec (map (map num) m) st)).
    { rewrite Em. unfold mvec. rewrite !map_map. apply map_ext. intros row. rewrite <- dot_scale, map_map. f_equal. apply map_ext. intros z.
      unfold of_mont, fdiv. apply (Rmul_comm (@num_ring bn_r)). }
    rewrite X, (weight_scale bn_r_prime).
    - now apply (mds_check_ok bn_r_prime).
    - intros Z. pose proof (finv_l bn_r_prime (num (2 ^ 256)) bn_R_nz) as Y. rewrite Z in Y.
      apply (n1_neq_n0 bn_r_prime). rewrite <- Y. apply (ARmul_0_l (Rth_ARth (Eqsth _) (Eq_ext _ _ _) (@num_ring bn_r))). }
  intros tfq [<-|[<-|[<-|[]]]]; cbn [fst snd].
  - apply (G _ _ _ raw_4 inv_4); [vm_compute; discriminate|exact raw_4_ok|vm_compute; reflexivity|vm_compute; reflexivity].
  - apply (G _ _ _ raw_3 inv_3); [vm_compute; discriminate|exact raw_3_ok|vm_compute; reflexivity|vm_compute; reflexivity].
  - apply (G _ _ _ raw_2 inv_2); [vm_compute; discriminate|exact raw_2_ok|vm_compute; reflexivity|vm_compute; reflexivity].
Qed.
(** A state with one element that is not zero: every element of the product is not zero. *)
Lemma case_C83_library : exists P : PoseidonParams bn_r, pp_new 64 true 4 8 54 = Ok (Some P) /\
  exists st', mix (ppm P) [num 1; 0; 0; 0] = Ok st' /\ weight st' = 4%nat.
Proof.
  destruct (claim_C83_library (4, 8, 54)%nat) as [P [E H]]; [cbn; auto|]. exists P. split; [exact E|].
  destruct (H [num 1; 0; 0; 0]) as [st' [A1 [A2 A3]]]; [reflexivity| |].
  - intros X. apply (f_equal (fun l => nval (hd 0 l))) in X. vm_compute in X. discriminate.
  - exists st'. split; [exact A1|]. cbn [fst] in A2, A3.
    assert (W : weight [num 1; 0; 0; 0 : Num bn_r] = 1%nat) by (vm_compute; reflexivity). rewrite W in A3.
    assert (weight st' <= 4)%nat; [|lia]. rewrite <- A2. unfold weight. clear. induction st' as [|x l IH]; cbn; auto. destruct (negb _); cbn; lia.
Qed.
