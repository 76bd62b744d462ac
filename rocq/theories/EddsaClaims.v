(** Claims about native signatures (native/eddsaposeidon.rs). *)

From Verif Require Export EccClaims Eddsa PoseidonSpec.
Open Scope num_scope.

Section One.
Context {p l : positive} (J : JubJub p l) (K : jubjub_ok J).
Variable sqrt : Num p -> option (Num p).
Hypothesis Hs : sqrt_ok sqrt.
Hypothesis Hf : full_bytes p && full_bytes l = true.
Set Default Proof Using "Type*".
Let Hp := j_p _ K.
Let Hm1 := j_m1 _ K.
Let Hd := j_d _ K.
Let EG := edwards_group Hp (jd J) Hm1 Hd.
Notation onc := (on_curve (jd J)).
Notation "x +e y" := (eadd (jd J) x y) (at level 50, left associativity).

Lemma verify_with_ok hram (s : Num l) r a m h : hram r a m = Ok h ->
  exists b, verify_with hram sqrt J s r a m = Ok b /\
  (b = true <-> exists A R, onc A /\ ex A = a /\ emul (jd J) (Zpos l) A = e_zero /\
     onc R /\ ex R = r /\ emul (jd J) (Zpos l) R = e_zero /\
     emul (jd J) (nval s) (jg J) = emul (jd J) (nval h) A +e R).
Proof.
  intros Eh. unfold verify_with.
  destruct (subgroup_decompress_ok Hp _ Hm1 Hd sqrt Hs l a (j_odd _ K)) as [oa [-> Ha]]. cbn [rbind].
  destruct oa as [A|].
  2:{ exists false. split; auto. split; [discriminate|]. intros [A [R [H1 [H2 [H3 _]]]]]. now destruct (Ha A). }
  destruct (subgroup_decompress_ok Hp _ Hm1 Hd sqrt Hs l r (j_odd _ K)) as [or [-> Hr]]. cbn [rbind].
  destruct or as [R|].
  2:{ exists false. split; auto. split; [discriminate|]. intros [A' [R [_ [_ [_ [H1 [H2 [H3 _]]]]]]]]. now destruct (Hr R). }
  rewrite Eh. cbn [rbind]. rewrite into_other_ok, Hf. cbn [rbind].
  destruct Ha as [A1 [A2 [A3 A4]]]. destruct Hr as [R1 [R2 [R3 R4]]].
  rewrite (e_mul_ok Hp _ Hm1 Hd A) by auto. cbn [rbind].
  rewrite (e_mul_ok Hp _ Hm1 Hd (jg J)) by apply (j_g _ K). cbn [rbind].
  rewrite (e_add_ok Hp _ Hm1 Hd) by (auto; now apply (onc_emul Hp _ Hm1 Hd)). cbn [rbind].
  assert (C : emul (jd J) (nval (num (nval h) : Num l)) A = emul (jd J) (nval h) A).
  { apply (zmul_congr EG (Zpos l)); auto. rewrite nval_num. apply Zmod_mod. }
  rewrite C. eexists. split; [reflexivity|]. rewrite e_eqb_eq. split.
  - intros E. exists A, R. auto 10.
  - intros [A' [R' [H1 [H2 [H3 [H4 [H5 [H6 E]]]]]]]]. now rewrite <- (A4 A'), <- (R4 R').
Qed.

Lemma sign_with_ok hram (rho sk : Num l) m : (forall r a, exists h, hram r a m = Ok h) ->
  exists s r A, sign_with hram J rho sk m = Ok (s, r) /\ e_mul (jd J) (jg J) sk = Ok A /\
    verify_with hram sqrt J s r (ex A) m = Ok true.
Proof.
  intros Ht. unfold sign_with. pose proof (j_g _ K) as HG. pose proof (onc_emul Hp _ Hm1 Hd) as OE.
  rewrite !(e_mul_ok Hp _ Hm1 Hd (jg J)) by auto. cbn [rbind].
  destruct (Ht (ex (emul (jd J) (nval rho) (jg J))) (ex (emul (jd J) (nval sk) (jg J)))) as [h Eh].
  rewrite Eh. cbn [rbind]. rewrite into_other_ok, Hf. cbn [rbind]. do 3 eexists. split; [reflexivity|].
  split; [reflexivity|].
  destruct (verify_with_ok hram (rho + num (nval h) * sk) _ _ m h Eh) as [b [-> Hb]]. f_equal. apply Hb.
  assert (Z : forall n, emul (jd J) (Zpos l) (emul (jd J) n (jg J)) = e_zero).
  { intros n. rewrite <- (emul_mul Hp _ Hm1 Hd), Z.mul_comm, (emul_mul Hp _ Hm1 Hd), (j_gl _ K) by auto.
    exact (zmul_zero EG n). }
  exists (emul (jd J) (nval sk) (jg J)), (emul (jd J) (nval rho) (jg J)).
  repeat (split; [auto; fail|]).
  rewrite <- (emul_mul Hp _ Hm1 Hd) by auto.
  transitivity (emul (jd J) (nval h * nval sk + nval rho) (jg J)); [|exact (zmul_add EG _ _ _ HG)].
  apply (zmul_congr EG (Zpos l)); [exact HG|exact (j_gl _ K)|].
  unfold nadd, nmul. rewrite !nval_num, Zmod_mod, <- Zplus_mod_idemp_r, Zmod_mod, Zplus_mod_idemp_r.
  rewrite Z.add_comm, <- Zplus_mod_idemp_l, Zmult_mod_idemp_l, Zplus_mod_idemp_l. reflexivity.
Qed.
End One.
Unset Default Proof Using.

Lemma subgroup_scalar_inj {p l} (J : JubJub p l) (K : jubjub_ok J) (s s' : Num l) :
  emul (jd J) (nval s) (jg J) = emul (jd J) (nval s') (jg J) -> s = s'.
Proof.
  intros E. pose proof (j_g _ K) as HG. pose proof (edwards_group (j_p _ K) _ (j_m1 _ K) (j_d _ K)) as EG.
  assert (Z : emul (jd J) (nval s - nval s') (jg J) = e_zero).
  { transitivity (eadd (jd J) (emul (jd J) (nval s) (jg J)) (eneg (emul (jd J) (nval s') (jg J)))); [exact (zmul_sub EG _ _ _ HG)|].
    rewrite E. apply (gaddNr EG). apply (ok_zmul EG); auto. }
  apply (emul_order_prime (j_p _ K) _ (j_m1 _ K) (j_d _ K) _ _ _ HG (j_l _ K) (j_gl _ K) (j_g0 _ K)) in Z.
  pose proof (nval_range s). pose proof (nval_range s'). rewrite <- (num_nval s), <- (num_nval s'). f_equal.
  destruct Z as [q Hq]. assert (q = 0)%Z by nia. lia.
Qed.

Lemma hash_ram_ok {p} (P : @PoseidonParams p) r a m : full_bytes p = true -> pp_ok P -> (4 <= ppt P)%nat ->
  exists salt h, from_seed SEED_EDDSA_POSEIDON = Ok salt /\ poseidon P [r; a; m; salt] = Ok h /\ hash_ram P r a m = Ok h.
Proof.
  intros Hf HP Ht. unfold hash_ram, from_seed. rewrite from_binary_be_ok, Hf by apply blake2s_bytes. cbn [rbind].
  set (salt := num (be_val _) : Num p). destruct (poseidon_ok P [r; a; m; salt] HP) as [h E]; [cbn [length]; lia|].
  exists salt, h. split; auto. split; auto. unfold poseidon_with_salt.
  replace (Nat.ltb (length [r; a; m]) (ppt P)) with true by (symmetry; apply Nat.ltb_lt; cbn [length]; lia). exact E.
Qed.

(* C35 *)
Lemma claim_C35_sign_verify : forall (p l : positive) (J : JubJub p l) (P : @PoseidonParams p) sqrt (sk : Num l) (m : Num p),
  jubjub_ok J -> (forall a, match sqrt a with Some b => b * b = a | None => ~ is_square a end) ->
  full_bytes p = true -> full_bytes l = true -> pp_ok P -> (4 <= ppt P)%nat ->
  exists s r A, eddsaposeidon_sign P J sk m = Ok (s, r) /\ e_mul (jd J) (jg J) sk = Ok A /\
    eddsaposeidon_verify P sqrt J s r (ex A) m = Ok true.
Proof.
  intros p l J P sqrt sk m K Hs Hf Hf' HP Ht. unfold eddsaposeidon_sign, hash_r.
  rewrite !into_binary_be_ok, Hf, Hf'. cbn [rbind]. rewrite from_binary_be_ok, Hf' by apply blake2s_bytes. cbn [rbind].
  apply (sign_with_ok J K); auto; [now rewrite Hf, Hf'|]. intros r a. destruct (hash_ram_ok P r a m Hf HP Ht) as [salt [h [_ [_ E]]]]. eauto.
Qed.
(** The same for every nonce [rho] and every total hash function of (r, a, m). *)
Lemma claim_C35_any_hash : forall (p l : positive) (J : JubJub p l) (hash : Num p -> Num p -> Num p -> Num p) sqrt (rho sk : Num l) (m : Num p),
  jubjub_ok J -> (forall a, match sqrt a with Some b => b * b = a | None => ~ is_square a end) ->
  full_bytes p = true -> full_bytes l = true ->
  let h := fun r a m => Ok (hash r a m) in
  exists s r A, sign_with h J rho sk m = Ok (s, r) /\ e_mul (jd J) (jg J) sk = Ok A /\
    verify_with h sqrt J s r (ex A) m = Ok true.
Proof.
  intros p l J hash sqrt rho sk m K Hs Hf Hf' h. apply (sign_with_ok J K); auto; [now rewrite Hf, Hf'|]. intros. unfold h. eauto.
Qed.
(** For the two parameter sets of the library. *)
Lemma claim_C35_both_curves : forall s1 s2 J1 J2 P1 P2,
  (forall a, match s1 a with Some b => b * b = a | None => ~ is_square a end) ->
  (forall a, match s2 a with Some b => b * b = a | None => ~ is_square a end) ->
  jubjub_bn s1 = Ok J1 -> jubjub_bls s2 = Ok J2 -> pp_ok P1 -> (4 <= ppt P1)%nat -> pp_ok P2 -> (4 <= ppt P2)%nat ->
  (forall sk m, exists s r A, eddsaposeidon_sign P1 J1 sk m = Ok (s, r) /\ e_mul (jd J1) (jg J1) sk = Ok A /\
    eddsaposeidon_verify P1 s1 J1 s r (ex A) m = Ok true) /\
  (forall sk m, exists s r A, eddsaposeidon_sign P2 J2 sk m = Ok (s, r) /\ e_mul (jd J2) (jg J2) sk = Ok A /\
    eddsaposeidon_verify P2 s2 J2 s r (ex A) m = Ok true).
Proof.
  intros s1 s2 J1 J2 P1 P2 H1 H2 E1 E2 K1 T1 K2 T2.
  destruct jubjub_bn_ok as [J [K [_ [_ [_ [_ E]]]]]]. destruct jubjub_bls_ok as [J' [K' [_ [_ [_ [_ E']]]]]].
  rewrite E in E1 by exact H1. rewrite E' in E2 by exact H2.
  assert (J = J1) by congruence. assert (J' = J2) by congruence. subst.
  split; intros sk m; apply claim_C35_sign_verify; auto; vm_compute; reflexivity.
Qed.

(* C36 *)
Lemma claim_C36_verify_equation : forall (p l : positive) (J : JubJub p l) (P : @PoseidonParams p) sqrt (s : Num l) (r a m : Num p),
  jubjub_ok J -> (forall a, match sqrt a with Some b => b * b = a | None => ~ is_square a end) ->
  full_bytes p = true -> full_bytes l = true -> pp_ok P -> (4 <= ppt P)%nat ->
  exists salt h b, from_seed SEED_EDDSA_POSEIDON = Ok salt /\ poseidon P [r; a; m; salt] = Ok h /\
    eddsaposeidon_verify P sqrt J s r a m = Ok b /\
    (b = true <-> exists A R,
       on_curve (jd J) A /\ ex A = a /\ emul (jd J) (Zpos l) A = mkE 0 1 /\
       on_curve (jd J) R /\ ex R = r /\ emul (jd J) (Zpos l) R = mkE 0 1 /\
       emul (jd J) (nval s) (jg J) = eadd (jd J) (emul (jd J) (nval h) A) R).
Proof.
  intros p l J P sqrt s r a m K Hs Hf Hf' HP Ht. destruct (hash_ram_ok P r a m Hf HP Ht) as [salt [h [E1 [E2 E]]]].
  destruct (verify_with_ok J K sqrt Hs ltac:(now rewrite Hf, Hf') (hash_ram P) s r a m h E) as [b [Eb Hb]].
  exists salt, h, b. auto.
Qed.
(** With the hash as an argument: exact for every hash that does not panic, and
    a false verdict without calling it when a point does not decompress. *)
Lemma claim_C36_any_hash : forall (p l : positive) (J : JubJub p l) hash sqrt (s : Num l) (r a m h : Num p),
  jubjub_ok J -> (forall a, match sqrt a with Some b => b * b = a | None => ~ is_square a end) ->
  full_bytes p = true -> full_bytes l = true -> hash r a m = Ok h ->
  exists b, verify_with hash sqrt J s r a m = Ok b /\
    (b = true <-> exists A R,
       on_curve (jd J) A /\ ex A = a /\ emul (jd J) (Zpos l) A = mkE 0 1 /\
       on_curve (jd J) R /\ ex R = r /\ emul (jd J) (Zpos l) R = mkE 0 1 /\
       emul (jd J) (nval s) (jg J) = eadd (jd J) (emul (jd J) (nval h) A) R).
Proof.
  intros p l J hash sqrt s r a m h K Hs Hf Hf' E. apply verify_with_ok; auto. now rewrite Hf, Hf'.
Qed.

(** For given r, a, m at most one scalar is accepted. *)
Lemma claim_C36_unique_scalar : forall (p l : positive) (J : JubJub p l) (P : @PoseidonParams p) sqrt (s s' : Num l) (r a m : Num p),
  jubjub_ok J -> (forall a, match sqrt a with Some b => b * b = a | None => ~ is_square a end) ->
  full_bytes p = true -> full_bytes l = true -> pp_ok P -> (4 <= ppt P)%nat ->
  eddsaposeidon_verify P sqrt J s r a m = Ok true -> eddsaposeidon_verify P sqrt J s' r a m = Ok true -> s = s'.
Proof.
  intros p l J P sqrt s s' r a m K Hs Hf Hf' HP Ht V V'.
  destruct (claim_C36_verify_equation p l J P sqrt s r a m K Hs Hf Hf' HP Ht) as [salt [h [b [E1 [E2 [E3 E4]]]]]].
  destruct (claim_C36_verify_equation p l J P sqrt s' r a m K Hs Hf Hf' HP Ht) as [salt' [h' [b' [E1' [E2' [E3' E4']]]]]].
  assert (salt' = salt) by congruence. subst. assert (h' = h) by congruence. subst.
  assert (b = true) by congruence. assert (b' = true) by congruence.
  apply proj1 in E4, E4'. destruct (E4 H) as [A [R [A1 [A2 [A3 [R1 [R2 [R3 E]]]]]]]].
  destruct (E4' H0) as [A' [R' [A1' [A2' [A3' [R1' [R2' [R3' E']]]]]]]].
  destruct (subgroup_decompress_ok (j_p _ K) _ (j_m1 _ K) (j_d _ K) sqrt Hs l a (j_odd _ K)) as [[Pa|] [_ Ha]]; [|now destruct (Ha A)].
  destruct (subgroup_decompress_ok (j_p _ K) _ (j_m1 _ K) (j_d _ K) sqrt Hs l r (j_odd _ K)) as [[Pr|] [_ Hr]]; [|now destruct (Hr R)].
  destruct Ha as [_ [_ [_ Ha]]], Hr as [_ [_ [_ Hr]]].
  assert (A' = A) by (rewrite (Ha A), (Ha A'); auto). assert (R' = R) by (rewrite (Hr R), (Hr R'); auto). subst A' R'.
  rewrite <- E' in E. now apply (subgroup_scalar_inj J K).
Qed.

(** Parameters with a 4 x 4 matrix, two full rounds and one partial. *)
Definition pp4 {p} : @PoseidonParams p :=
  mkPP (map num [5; 11; 23]%Z) (map (map num) [[2; 3; 5; 7]; [7; 11; 13; 17]; [17; 19; 29; 31]; [1; 4; 9; 16]]%Z) 4 2 1.
Lemma pp4_ok p : pp_ok (@pp4 p) /\ (4 <= ppt (@pp4 p))%nat.
Proof. split; [|cbn; lia]. repeat split. repeat constructor. Qed.
Lemma case_C35_sign_verify : exists J : JubJub bn_r bn_l, exists sqrt, jubjub_ok J /\
  (forall a : Num bn_r, match sqrt a with Some b => b * b = a | None => ~ is_square a end) /\
  full_bytes bn_r = true /\ full_bytes bn_l = true /\ pp_ok (@pp4 bn_r) /\ (4 <= ppt (@pp4 bn_r))%nat.
Proof.
  destruct jubjub_bn_ok as [J [K _]]. exists J, sqrt_search. split; auto. split; [apply sqrt_search_ok|].
  split; [vm_compute; reflexivity|]. split; [vm_compute; reflexivity|]. apply pp4_ok.
Qed.
(** A signature by key 2 on 1; every other scalar is rejected. *)
Lemma case_C36_verify_equation : exists (J : JubJub bn_r bn_l) sqrt s r a, jubjub_ok J /\
  (forall a : Num bn_r, match sqrt a with Some b => b * b = a | None => ~ is_square a end) /\
  eddsaposeidon_verify pp4 sqrt J s r a (num 1) = Ok true /\
  (forall s', s' <> s -> eddsaposeidon_verify pp4 sqrt J s' r a (num 1) = Ok false).
Proof.
  destruct jubjub_bn_ok as [J [K _]]. destruct (pp4_ok bn_r) as [HP Ht].
  assert (Fb : full_bytes bn_r = true /\ full_bytes bn_l = true) by (split; vm_compute; reflexivity). destruct Fb as [F1 F2].
  destruct (claim_C35_sign_verify _ _ J pp4 sqrt_search (num 2) (num 1) K (sqrt_search_ok _) F1 F2 HP Ht) as [s [r [A [_ [_ V]]]]].
  exists J, sqrt_search, s, r, (ex A). split; auto. split; [apply sqrt_search_ok|]. split; [exact V|]. intros s' N.
  destruct (claim_C36_verify_equation _ _ J pp4 sqrt_search s' r (ex A) (num 1) K (sqrt_search_ok _) F1 F2 HP Ht) as [salt [h [b [_ [_ [E _]]]]]].
  rewrite E. f_equal. destruct b; auto. destruct N.
  apply (claim_C36_unique_scalar _ _ J pp4 sqrt_search s' s r (ex A) (num 1) K (sqrt_search_ok _) F1 F2 HP Ht); auto.
Qed.
