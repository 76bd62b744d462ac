(** What the native Poseidon computes, without reference to the loops of the
    code: the rounds of the Poseidon permutation, and that it is a permutation. *)

From Verif Require Export PoseidonClaims CurveBN CurveBLS.
Open Scope num_scope.

(** ** The permutation *)
Section Perm.
Context {p : positive}.
Notation F := (Num p).
Implicit Types (P : PoseidonParams p).

Definition dot (row st : list F) : F := fold_right nadd 0 (map (fun xy => fst xy * snd xy) (combine row st)).
Definition mvec (m : list (list F)) (st : list F) : list F := map (fun row => dot row st) m.
Definition fifth (x : F) : F := x * x * x * x * x.
(** Add the constant to every element; raise to the fifth power all of them or
    the first only; multiply by the matrix. *)
Definition full_step (m : list (list F)) (st : list F) (c : F) : list F := mvec m (map fifth (map (fun x => x + c) st)).
Definition partial_step (m : list (list F)) (st : list F) (c : F) : list F :=
  mvec m (match map (fun x => x + c) st with [] => [] | x :: xs => fifth x :: xs end).
(** [a] full rounds, [b] partial rounds, the rest full. *)
Definition schedule (m : list (list F)) (a b : nat) (cs : list F) (st : list F) : list F :=
  let st := fold_left (full_step m) (firstn a cs) st in
  let st := fold_left (partial_step m) (firstn b (skipn a cs)) st in
  fold_left (full_step m) (skipn b (skipn a cs)) st.
Definition permutation (P : PoseidonParams p) : list F -> list F :=
  schedule (ppm P) (ppf P / 2) (ppp P) (ppc P).

(** [f] is a bijection of the vectors of length [t]. *)
Definition bijective (t : nat) (f : list F -> list F) : Prop := exists g : list F -> list F,
  forall st, length st = t -> length (f st) = t /\ length (g st) = t /\ g (f st) = st /\ f (g st) = st.

Lemma bij_comp t f g : bijective t f -> bijective t g -> bijective t (fun x => g (f x)).
Proof.
  intros [f' Hf] [g' Hg]. exists (fun x => f' (g' x)). intros st L.
  destruct (Hf st L) as [A1 [A2 [A3 A4]]]. destruct (Hg (f st) A1) as [B1 [B2 [B3 B4]]].
  destruct (Hg st L) as [C1 [C2 [C3 C4]]]. destruct (Hf (g' st) C2) as [D1 [D2 [D3 D4]]].
  repeat split; auto; congruence.
Qed.
Lemma bij_id t : bijective t (fun x => x).
Proof. exists (fun x => x). auto. Qed.
Lemma bij_ext t f g : (forall st, f st = g st) -> bijective t f -> bijective t g.
Proof. intros E [f' H]. exists f'. intros st L. destruct (H st L) as [A [B [C D]]]. rewrite <- !E. auto. Qed.
Lemma bij_fold {A} t (f : list F -> A -> list F) l : (forall a, bijective t (fun st => f st a)) -> bijective t (fold_left f l).
Proof.
  intros H. induction l as [|a l IH]; cbn [fold_left]; [apply bij_id|].
  apply (bij_comp t (fun st => f st a) (fold_left f l)); auto.
Qed.
Lemma bij_map t (f g : F -> F) : (forall x, g (f x) = x) -> (forall x, f (g x) = x) -> bijective t (map f).
Proof.
  intros H1 H2. exists (map g). intros st L. rewrite !map_length, !map_map. repeat split; auto.
  - rewrite (map_ext _ (fun x => x)) by auto. apply map_id.
  - rewrite (map_ext _ (fun x => x)) by auto. apply map_id.
Qed.
Definition on_first (f : F -> F) (st : list F) : list F := match st with [] => [] | x :: xs => f x :: xs end.
Lemma bij_first t (f g : F -> F) : (forall x, g (f x) = x) -> (forall x, f (g x) = x) -> bijective t (on_first f).
Proof. intros H1 H2. exists (on_first g). intros [|x st] L; cbn in *; rewrite ?H1, ?H2; auto. Qed.

Add Ring perm_ring : (@num_ring p) (morphism (@num_morph p), constants [num_cst], power_tac (@num_power p) [num_pow_cst]).
Lemma bij_addc t c : bijective t (map (fun x => x + c)).
Proof. apply bij_map with (g := fun x => x - c); intros; ring. Qed.

(** The code's loops *)
Lemma mix_row_dot row st a : (length st <= length row)%nat -> mix_row row st a = Ok (a + dot row st).
Proof.
  revert row a. induction st as [|x st IH]; intros [|k row] a L; cbn in L; try lia; cbn [mix_row].
  - f_equal. unfold dot. cbn. ring.
  - f_equal. unfold dot. cbn. ring.
  - rewrite IH by lia. f_equal. unfold dot. cbn. ring.
Qed.
Lemma mix_rows_mvec n m st : (n = length m)%nat -> Forall (fun row => (length st <= length row)%nat) m ->
  mix_rows n m st = Ok (mvec m st).
Proof.
  intros -> H. induction H as [|row m L _ IH]; [reflexivity|]. cbn [length mix_rows]. rewrite mix_row_dot by auto.
  cbn [rbind]. rewrite IH. cbn [rbind mvec map]. do 2 f_equal. ring.
Qed.
Lemma mix_mvec P st : pp_ok P -> length st = ppt P -> mix (ppm P) st = Ok (mvec (ppm P) st).
Proof.
  intros [_ [L H]] E. unfold mix. apply mix_rows_mvec; [congruence|].
  eapply Forall_impl; [|exact H]. cbn. intros; lia.
Qed.
Lemma sigma_fifth x : sigma x = fifth x.
Proof. unfold sigma, fifth, nsquare. ring. Qed.
Lemma mvec_length m st : length (mvec m st) = length m.
Proof. apply map_length. Qed.
Lemma full_length P st c : pp_ok P -> length (full_step (ppm P) st c) = ppt P.
Proof. intros [_ [L _]]. unfold full_step. now rewrite mvec_length. Qed.
Lemma partial_length P st c : pp_ok P -> length (partial_step (ppm P) st c) = ppt P.
Proof. intros [_ [L _]]. unfold partial_step. now rewrite mvec_length. Qed.
Lemma round_step P i st c : pp_ok P -> (0 < ppt P)%nat -> length st = ppt P -> nth_error (ppc P) i = Some c ->
  round P i st = Ok (if full_round P i then full_step (ppm P) st c else partial_step (ppm P) st c).
Proof.
  intros HP Ht L E. unfold round. rewrite E. cbn [unwrap rbind]. cbv zeta. destruct (full_round P i); cbn [rbind].
  - rewrite mix_mvec; auto; [|unfold ark; now rewrite !map_length]. unfold full_step, ark.
    do 2 f_equal. apply map_ext. intros; apply sigma_fifth.
  - destruct st as [|x st]; cbn in L; [lia|]. cbn [ark map rbind]. rewrite mix_mvec; auto; [|cbn; now rewrite map_length].
    unfold partial_step. cbn [map]. now rewrite sigma_fifth.
Qed.
Lemma rounds_app P is js st : rounds P (is ++ js) st = (st' <-? rounds P is st ; rounds P js st').
Proof. revert st. induction is as [|i is IH]; intros st; cbn [app rounds rbind]; auto. destruct (round P i st); cbn [rbind]; auto. Qed.
(** A run of equal rounds *)
Lemma rounds_fold P (b : bool) (n k : nat) cs st : pp_ok P -> (0 < ppt P)%nat -> length st = ppt P ->
  (forall i, (k <= i < k + n)%nat -> full_round P i = b) -> cs = firstn n (skipn k (ppc P)) -> (k + n <= length (ppc P))%nat ->
  let r := fold_left (if b then full_step (ppm P) else partial_step (ppm P)) cs st in
  rounds P (seq k n) st = Ok r /\ length r = ppt P.
Proof.
  intros HP Ht. revert k cs st. induction n as [|n IH]; intros k cs st L Hb E Lc; cbn zeta.
  - subst cs. cbn. auto.
  - destruct (nth_error (ppc P) k) as [c|] eqn:Ec; [|apply nth_error_None in Ec; lia].
    assert (S1 : skipn k (ppc P) = c :: skipn (S k) (ppc P)).
    { clear -Ec. revert Ec. generalize (ppc P) as l. induction k as [|k IH]; intros [|x l] H; cbn in H; try discriminate.
      - assert (x = c) by congruence. subst. reflexivity.
      - cbn [skipn]. rewrite (IH _ H). reflexivity. }
    rewrite S1 in E. cbn [firstn] in E. subst cs. cbn [seq rounds fold_left].
    rewrite (round_step P k st c) by auto. cbn [rbind]. rewrite (Hb k) by lia.
    specialize (IH (S k) (firstn n (skipn (S k) (ppc P)))). cbn zeta in IH. destruct b.
    + apply IH; auto; [now apply full_length|intros; apply Hb; lia|lia].
    + apply IH; auto; [now apply partial_length|intros; apply Hb; lia|lia].
Qed.
Lemma rounds_permutation P st : pp_ok P -> (0 < ppt P)%nat -> length st = ppt P ->
  rounds P (seq 0 (ppf P + ppp P)) st = Ok (permutation P st) /\ length (permutation P st) = ppt P.
Proof.
  intros HP Ht L. destruct HP as [Lc HP']. assert (HP : pp_ok P) by (split; auto).
  unfold permutation, schedule. rewrite <- Nat.div2_div. set (h := Nat.div2 (ppf P)).
  assert (Hh : (h <= ppf P)%nat) by (unfold h; rewrite Nat.div2_div; apply Nat.div_le_upper_bound; lia).
  replace (ppf P + ppp P)%nat with (h + (ppp P + (ppf P - h)))%nat by lia.
  rewrite !seq_app, !rounds_app. cbn [Nat.add].
  destruct (rounds_fold P true h 0 (firstn h (ppc P)) st) as [E1 L1]; auto; try lia.
  { intros i Hi. unfold full_round. fold h. rewrite (proj2 (Nat.ltb_lt i h)) by lia. reflexivity. }
  rewrite E1. cbn [rbind]. rewrite rounds_app.
  destruct (rounds_fold P false (ppp P) h (firstn (ppp P) (skipn h (ppc P))) (fold_left (full_step (ppm P)) (firstn h (ppc P)) st)) as [E2 L2]; auto; try lia.
  { intros i Hi. unfold full_round. fold h. rewrite (proj2 (Nat.ltb_ge i h)), (proj2 (Nat.leb_gt _ i)) by lia. reflexivity. }
  cbn [rbind]. rewrite E2. cbn [rbind].
  destruct (rounds_fold P true (ppf P - h) (h + ppp P) (skipn (ppp P) (skipn h (ppc P)))
    (fold_left (partial_step (ppm P)) (firstn (ppp P) (skipn h (ppc P))) (fold_left (full_step (ppm P)) (firstn h (ppc P)) st))) as [E3 L3]; auto; try lia.
  { intros i Hi. unfold full_round. fold h. rewrite (proj2 (Nat.leb_le _ i)) by lia. apply orb_true_r. }
  { rewrite firstn_all2; [|rewrite skipn_length; lia].
    rewrite Nat.add_comm. clear. generalize (ppc P) as l. induction h as [|h IH]; intros l; [now rewrite Nat.add_0_r|].
    destruct l; [now rewrite !skipn_nil|]. rewrite Nat.add_succ_r. cbn [skipn]. apply IH. }
Qed.
End Perm.

(** ** The fifth power *)
Section Fifth.
Context {p : positive} (Hp : Prime p).
Notation F := (Num p).
Add Field perm_field : (num_field Hp) (morphism (@num_morph p), constants [num_cst], power_tac (@num_power p) [num_pow_cst]).
Lemma fifth_npow (x : F) : fifth x = npow x 5.
Proof. unfold fifth. ring. Qed.
Lemma npow_zero n : n <> 0%N -> npow (0 : F) n = 0.
Proof.
  intros H. rewrite <- (N.succ_pred n H). unfold npow. fold (npow (0:F)).
  change (npow (0:F) (N.succ (N.pred n)) = 0). rewrite npow_succ. ring.
Qed.
Lemma fifth_root : ((Zpos p - 1) mod 5 <> 0)%Z -> exists e : N, forall x : F, npow (fifth x) e = x /\ fifth (npow x e) = x.
Proof using Hp.
  intros H. pose proof (prime_gt1 Hp) as H1.
  assert (E : exists k, (0 <= k /\ (1 + k * (Zpos p - 1)) mod 5 = 0)%Z).
  { assert (B := Z.mod_pos_bound (Zpos p - 1) 5 eq_refl).
    assert (C : forall k, ((1 + k * (Zpos p - 1)) mod 5 = (1 + k * ((Zpos p - 1) mod 5)) mod 5)%Z).
    { intros k. rewrite Z.add_mod, Z.mul_mod, (Z.add_mod 1 (k * ((Zpos p - 1) mod 5))), (Z.mul_mod k ((Zpos p - 1) mod 5)), Z.mod_mod by lia. reflexivity. }
    set (r := ((Zpos p - 1) mod 5)%Z) in *.
    assert (r = 1 \/ r = 2 \/ r = 3 \/ r = 4)%Z as [E|[E|[E|E]]] by lia.
    - exists 4%Z. rewrite C, E. split; [lia|reflexivity].
    - exists 2%Z. rewrite C, E. split; [lia|reflexivity].
    - exists 3%Z. rewrite C, E. split; [lia|reflexivity].
    - exists 1%Z. rewrite C, E. split; [lia|reflexivity]. }
  destruct E as [k [Hk Ek]]. apply Z.mod_divide in Ek; [|lia]. destruct Ek as [e Ee].
  assert (He : (0 < e)%Z) by nia.
  assert (K : forall x : F, npow x (5 * Z.to_N e) = x).
  { intros x. destruct (num_eq_dec x 0) as [->|Hx]; [apply npow_zero; lia|].
    replace (5 * Z.to_N e)%N with (N.succ (Z.to_N (Zpos p - 1) * Z.to_N k))%N
      by (apply N2Z.inj; rewrite N2Z.inj_succ, !N2Z.inj_mul, !Z2N.id by lia; lia).
    rewrite npow_succ, npow_mul, (fermat Hp) by auto. rewrite npow_one. ring. }
  exists (Z.to_N e). intros x. rewrite !fifth_npow, <- !npow_mul. split; [apply K|]. rewrite N.mul_comm. apply K.
Qed.
End Fifth.

Section PrimeClaims.
Variable p : positive.
Hypothesis Hp : Prime p.
Set Default Proof Using "Hp".
Notation F := (Num p).

(* C65 *)
(** The hash of up to [t] numbers is the first element of the permutation of the
    numbers extended by zeros. *)
Lemma claim_C65_permutation : forall (P : PoseidonParams p) (ins : list (Num p)), pp_ok P -> (0 < length ins <= ppt P)%nat ->
  let st := ins ++ repeat 0 (ppt P - length ins) in
  poseidon P ins = Ok (hd 0 (permutation P st)) /\ length (permutation P st) = ppt P.
Proof.
  intros P ins HP L st. assert (Ls : length st = ppt P) by (unfold st; rewrite app_length, repeat_length; lia).
  destruct (rounds_permutation P st HP ltac:(lia) Ls) as [E Lr]. split; auto. unfold poseidon.
  rewrite (proj2 (Nat.leb_le _ _)), (proj2 (Nat.ltb_lt _ _)) by lia. cbn [rassert rbind]. unfold st in E. rewrite E. cbn [rbind].
  fold st. destruct (permutation P st); [cbn in Lr; lia|reflexivity].
Qed.
(** It is a bijection of the states if the matrix is invertible and the fifth
    power is a bijection of the field. *)
Lemma claim_C65_bijective : forall (P : PoseidonParams p) (m' : list (list (Num p))), pp_ok P ->
  ((Zpos p - 1) mod 5 <> 0)%Z -> length m' = ppt P ->
  (forall st, length st = ppt P -> mvec m' (mvec (ppm P) st) = st /\ mvec (ppm P) (mvec m' st) = st) ->
  bijective (ppt P) (permutation P).
Proof.
  intros P m' [_ [Lm _]] H5 Lm' Hm. destruct (fifth_root Hp H5) as [e He].
  assert (Bm : bijective (ppt P) (mvec (ppm P))).
  { exists (mvec m'). intros st L. destruct (Hm st L). rewrite !mvec_length. auto. }
  assert (Bf : forall c, bijective (ppt P) (fun st => full_step (ppm P) st c)).
  { intros c. unfold full_step. apply (bij_comp _ (fun st => map fifth (map (fun x => x + c) st)) (mvec (ppm P))); auto.
    apply (bij_comp _ (map (fun x => x + c)) (map fifth)); [apply bij_addc|].
    apply bij_map with (g := fun x => npow x e); intros x; apply He. }
  assert (Bp : forall c, bijective (ppt P) (fun st => partial_step (ppm P) st c)).
  { intros c. unfold partial_step.
    apply (bij_comp _ (fun st => match map (fun x => x + c) st with [] => [] | x :: xs => fifth x :: xs end) (mvec (ppm P))); auto.
    apply (bij_comp _ (map (fun x => x + c)) (on_first fifth)); [apply bij_addc|].
    apply bij_first with (g := fun x => npow x e); intros x; apply He. }
  unfold permutation, schedule.
  apply (bij_comp _ (fun st => fold_left (partial_step (ppm P)) (firstn (ppp P) (skipn (ppf P / 2) (ppc P))) (fold_left (full_step (ppm P)) (firstn (ppf P / 2) (ppc P)) st))
    (fold_left (full_step (ppm P)) (skipn (ppp P) (skipn (ppf P / 2) (ppc P))))); [|now apply bij_fold].
  apply (bij_comp _ (fold_left (full_step (ppm P)) (firstn (ppf P / 2) (ppc P))) (fold_left (partial_step (ppm P)) (firstn (ppp P) (skipn (ppf P / 2) (ppc P)))));
  now apply bij_fold.
Qed.
End PrimeClaims.

Unset Default Proof Using.
(** The fields of both parameter sets meet the condition on the fifth power. *)
Lemma claim_C65_sbox : (forall x y : Num bn_r, sigma x = sigma y -> x = y) /\ (forall x y : Num bls_r, sigma x = sigma y -> x = y) /\
  (forall y : Num bn_r, exists x, sigma x = y) /\ (forall y : Num bls_r, exists x, sigma x = y).
Proof.
  destruct (fifth_root bn_r_prime ltac:(vm_compute; discriminate)) as [e1 H1].
  destruct (fifth_root bls_r_prime ltac:(vm_compute; discriminate)) as [e2 H2].
  repeat split.
  - intros x y E. rewrite !sigma_fifth in E. rewrite <- (proj1 (H1 x)), <- (proj1 (H1 y)). now rewrite E.
  - intros x y E. rewrite !sigma_fifth in E. rewrite <- (proj1 (H2 x)), <- (proj1 (H2 y)). now rewrite E.
  - intros y. exists (npow y e1). rewrite sigma_fifth. apply H1.
  - intros y. exists (npow y e2). rewrite sigma_fifth. apply H2.
Qed.

Add Ring r37 : (@num_ring 37) (morphism (@num_morph 37), constants [num_cst], power_tac (@num_power 37) [num_pow_cst]).
Definition mU : list (list (Num 37)) := [[num 1; num 1; num 0]; [num 0; num 1; num 1]; [num 0; num 0; num 1]].
Definition mV : list (list (Num 37)) := [[num 1; num (-1); num 1]; [num 0; num 1; num (-1)]; [num 0; num 0; num 1]].
Definition PU : PoseidonParams 37 := mkPP [num 3; num 5; num 8] mU 3 2 1.
Lemma PU_ok : pp_ok PU.
Proof. split; [reflexivity|]. split; [reflexivity|]. repeat (apply Forall_cons; [reflexivity|]). apply Forall_nil. Qed.
Lemma case_C65_permutation : pp_ok PU /\ hval (poseidon PU [num 22; num 9]) = nval (hd 0 (permutation PU [num 22; num 9; num 0])) /\
  map nval (permutation PU [num 22; num 9; num 0]) = [32; 7; 16]%Z.
Proof. split; [exact PU_ok|]. split; vm_compute; reflexivity. Qed.
Lemma case_C65_bijective : (36 mod 5 <> 0)%Z /\ bijective 3 (permutation PU).
Proof.
  split; [discriminate|]. apply (claim_C65_bijective 37 p37 PU mV); [exact PU_ok|discriminate|reflexivity|].
  intros [|x [|y [|z [|w st]]]] L; try discriminate. unfold mvec, dot. cbn [PU ppm mU mV map combine fst snd fold_right].
  assert (E : forall a b c a' b' c' : Num 37, a = a' -> b = b' -> c = c' -> [a; b; c] = [a'; b'; c']) by (intros; subst; reflexivity).
  split; apply E; ring.
Qed.
(** The fifth powers of 2 and 3. *)
Lemma case_C65_sbox : nval (sigma (num 2 : Num bn_r)) = 32%Z /\ nval (sigma (num 3 : Num bls_r)) = 243%Z.
Proof. split; vm_compute; reflexivity. Qed.
