(** The contract printed for a key and the library's verifier give the same answers. *)

From Verif Require Import Primality.
From Verif Require Export Contract WeierClaims VerifierClaims.
Open Scope Z_scope.

Notation on1 := (onw (fq bn_q) (num 3)).
Notation on2 := (onw (fq2 bn_q) bn_b2).
Definition G1g : curve_group (fq bn_q) (num 3) := proj1 claim_C77_curves.
Definition G2g : curve_group (fq2 bn_q) bn_b2 := proj1 (proj2 claim_C77_curves).
Lemma wmul_inf {K} (O : fops K) k : wmul O k None = None.
Proof. induction k as [k IH|k IH|]; cbn [wmul]; rewrite ?IH; reflexivity. Qed.
Local Opaque wmul.

(** No point of the curve has y = 0: -3 is not a cube. *)
Lemma bn_no_cube (x : Num bn_q) : nadd (nmul (nmul x x) x) (num 3) <> n0.
Proof.
  Add Field cc_field : (num_field prime_bn_q) (morphism (@num_morph bn_q), constants [num_cst], power_tac (@num_power bn_q) [num_pow_cst]).
  intros E.
  assert (X : npow x 3 = (num (-3) : Num bn_q)) by (change (num (-3) : Num bn_q) with (num (Z.opp 3) : Num bn_q); rewrite num_opp; transitivity (nsub (nadd (nmul (nmul x x) x) (num 3)) (num 3)); [ring|rewrite E; ring]).
  assert (X' : npow x 3 = (num (Zpos bn_q - 3) : Num bn_q)) by (rewrite X; apply num_eq_mod; reflexivity). clear X. rename X' into X.
  assert (N : x <> n0).
  { intros ->. assert (Y : (num 3 : Num bn_q) = n0) by (rewrite <- E; ring). revert Y. apply num_nonzero. split; reflexivity. }
  pose proof (fermat prime_bn_q x N) as Fm.
  assert (P : npow (num (Zpos bn_q - 3) : Num bn_q) (Z.to_N ((Zpos bn_q - 1) / 3)) = n1).
  { rewrite <- X, <- npow_mul. etransitivity; [|exact Fm]. f_equal. }
  rewrite npow_num in P. apply (f_equal nval) in P. rewrite nval_num in P.
  change (Z.of_N (Z.to_N ((Zpos bn_q - 1) / 3))) with (Zpos (Z.to_pos ((Zpos bn_q - 1) / 3))) in P.
  rewrite <- powm_spec, <- powmM_powm in P by reflexivity.
  revert P. apply Z.eqb_neq. vm_compute. reflexivity.
Qed.
Lemma on1_y x y : on1 (Some (x, y)) -> y <> n0.
Proof. intros H ->. cbn in H. apply (bn_no_cube x). rewrite <- H. apply num_eq. reflexivity. Qed.

(** ** Words and points *)
Lemma bn_q_val : ev_q = Zpos bn_q. Proof. reflexivity. Qed.
Lemma nval_lt (x : Num bn_q) : 0 <= nval x < ev_q.
Proof. rewrite bn_q_val. apply nval_range. Qed.
Lemma on_curve1 (x y : Num bn_q) : is_on_curve (fq bn_q) x y false (num 3) = true <-> on1 (Some (x, y)).
Proof. unfold is_on_curve. cbn [fq keqb kmul kadd onw]. apply neqb_eq. Qed.
Lemma on_curve2 (x y : Fq2 bn_q) : is_on_curve (fq2 bn_q) x y false bn_b2 = true <-> on2 (Some (x, y)).
Proof. unfold is_on_curve. cbn [fq2 keqb kmul kadd onw]. apply q2eqb_eq. Qed.
Lemma nval_0 (x : Num bn_q) : nval x = 0 -> x = n0.
Proof. intros E. rewrite <- (num_nval x), E. reflexivity. Qed.
Lemma num_0 z : 0 <= z < ev_q -> (num z : Num bn_q) = n0 -> z = 0.
Proof. intros H E. rewrite bn_q_val in H. apply (f_equal nval) in E. rewrite nval_num, Z.mod_small in E by exact H. exact E. Qed.
Lemma word1_ok P : on1 P -> ev_point1 (fst (ev_words1 P)) (snd (ev_words1 P)) = Some P.
Proof.
  destruct P as [[x y]|]; [|reflexivity]. intros H. cbn [ev_words1 fst snd]. unfold ev_point1. pose proof (nval_lt x). pose proof (nval_lt y).
  rewrite (proj2 (Z.ltb_lt _ _)), (proj2 (Z.ltb_lt _ _)) by lia. cbn [andb].
  rewrite (proj2 (Z.eqb_neq (nval y) 0)), Bool.andb_false_r by (intros E; apply (on1_y x y H), nval_0, E). cbn iota.
  rewrite !num_nval, (proj2 (on_curve1 x y) H). reflexivity.
Qed.
Lemma point1_data X Y : 0 <= X < ev_q -> 0 <= Y < ev_q ->
  match bn_g1 (num X, num Y) with
  | Ok a => ev_point1 X Y = Some (aff_pt a) /\ on1 (aff_pt a) /\ ev_words1 (aff_pt a) = (X, Y)
  | Panic => ev_point1 X Y = None
  end.
Proof.
  intros HX HY. unfold bn_g1, ev_point1. rewrite bn_b_eq. pose proof (g1_curve_spec (num 3) (num X : Num bn_q) (num Y)) as S'.
  rewrite (proj2 (Z.ltb_lt X _)), (proj2 (Z.ltb_lt Y _)) by lia. cbn [andb].
  assert (V : forall z, 0 <= z < ev_q -> nval (num z : Num bn_q) = z) by (intros z Hz; rewrite nval_num; now apply Z.mod_small).
  destruct (g1_curve (num 3) (num X, num Y)) as [a|].
  - destruct S' as [[E1 [E2 ->]]|[N [C ->]]].
    + apply num_0 in E1, E2; auto. subst. cbn. auto.
    + assert (B : (X =? 0) && (Y =? 0) = false).
      { apply Bool.not_true_is_false. rewrite Bool.andb_true_iff, !Z.eqb_eq. intros [-> ->]. now apply N. }
      rewrite B, (proj2 (on_curve1 (num X) (num Y)) C). cbn [aff_pt ainf ax ay ev_words1]. rewrite !V by auto. auto.
  - destruct S' as [N C]. destruct ((X =? 0) && (Y =? 0)) eqn:B.
    + rewrite Bool.andb_true_iff, !Z.eqb_eq in B. destruct B as [-> ->]. exfalso. now apply N.
    + destruct is_on_curve eqn:I1; [|reflexivity]. apply on_curve1 in I1. contradiction.
Qed.
Lemma point2_data X1 X0 Y1 Y0 : 0 <= X1 < ev_q -> 0 <= X0 < ev_q -> 0 <= Y1 < ev_q -> 0 <= Y0 < ev_q ->
  match bn_g2 ((num X1, num X0), (num Y1, num Y0)) with
  | Ok a => on2 (aff_pt a) /\ ev_point2 X1 X0 Y1 Y0 = match wmul (fq2 bn_q) bn_ord (aff_pt a) with None => Some (aff_pt a) | Some _ => None end
  | Panic => ev_point2 X1 X0 Y1 Y0 = None
  end.
Proof.
  intros HX1 HX0 HY1 HY0. unfold bn_g2, ev_point2. pose proof (g2_curve_spec bn_b2 ((num X1 : Num bn_q, num X0), (num Y1, num Y0))) as S'. cbn [fst snd] in S'.
  rewrite (proj2 (Z.ltb_lt X1 _)), (proj2 (Z.ltb_lt X0 _)), (proj2 (Z.ltb_lt Y1 _)), (proj2 (Z.ltb_lt Y0 _)) by lia. cbn [andb]. cbv zeta.
  assert (B : (X1 =? 0) && (X0 =? 0) && (Y1 =? 0) && (Y0 =? 0) = true <-> (mkFq2 (num X0) (num X1) = (q2zero : Fq2 bn_q) /\ mkFq2 (num Y0) (num Y1) = (q2zero : Fq2 bn_q))).
  { rewrite !Bool.andb_true_iff, !Z.eqb_eq. split.
    - intros [[[-> ->] ->] ->]. split; reflexivity.
    - intros [E1 E2]. pose proof (f_equal c0 E1) as A0. pose proof (f_equal c1 E1) as A1. pose proof (f_equal c0 E2) as A2. pose proof (f_equal c1 E2) as A3. cbn [c0 c1 q2zero] in A0, A1, A2, A3.
      apply num_0 in A0, A1, A2, A3; auto. }
  destruct (g2_curve bn_b2 ((num X1, num X0), (num Y1, num Y0))) as [a|].
  - destruct S' as [[E1 [E2 ->]]|[N [C ->]]].
    + rewrite (proj2 B (conj E1 E2)). split; [exact I|]. unfold aff_pt. cbn [ainf]. now rewrite wmul_inf.
    + destruct (_ && (Y0 =? 0)) eqn:B1; [exfalso; now apply N, B|]. rewrite (proj2 (on_curve2 _ _) C). cbn [aff_pt ainf ax ay]. split; [exact C|]. reflexivity.
  - destruct S' as [N C]. destruct (_ && (Y0 =? 0)) eqn:B1; [exfalso; now apply N, B|].
    destruct is_on_curve eqn:I1; [|reflexivity]. apply on_curve2 in I1. contradiction.
Qed.
(** What the key prints *)
Lemma key_word1 (a : Aff (Num bn_q)) : g1_words (g1_data a) = ev_words1 (aff_pt a).
Proof. unfold g1_words, g1_data, aff_pt. destruct (ainf a); reflexivity. Qed.
Lemma key_point2 (a : Aff (Fq2 bn_q)) : on2 (aff_pt a) -> wmul (fq2 bn_q) bn_ord (aff_pt a) = None ->
  let w := g2_words (g2_data a) in ev_point2 (fst (fst w)) (snd (fst w)) (fst (snd w)) (snd (snd w)) = Some (aff_pt a).
Proof.
  intros C H. cbv zeta. pose proof (g2_roundtrip bn_b2 a bn_b2_nz) as R.
  assert (R' : g2_curve bn_b2 (g2_data a) = Ok (if ainf a then mkAff q2zero q2zero true else a)).
  { apply R. intros Ei. unfold aff_pt in C. rewrite Ei in C. exact C. }
  destruct (g2_data a) as [[x1 x0] [y1 y0]] eqn:Ed. cbn [g2_words fst snd].
  pose proof (point2_data (nval x1) (nval x0) (nval y1) (nval y0) (nval_lt _) (nval_lt _) (nval_lt _) (nval_lt _)) as S'.
  rewrite !num_nval in S'. unfold bn_g2 in S'. rewrite R' in S'. destruct S' as [_ ->].
  assert (E : aff_pt (if ainf a then mkAff q2zero q2zero true else a) = aff_pt a) by (unfold aff_pt; destruct (ainf a) eqn:Ei; [reflexivity|now rewrite Ei]).
  now rewrite E, H.
Qed.

(** ** The functions of the library [Pairing] *)
Lemma sol_negate_ok P : on1 P -> sol_negate (ev_words1 P) = ev_words1 (wneg (fq bn_q) P).
Proof.
  destruct P as [[x y]|]; [|reflexivity]. intros H. pose proof (on1_y x y H) as Ny. unfold sol_negate. cbn [ev_words1 wneg fst snd fq ksub k0].
  assert (V : nval y <> 0) by (intros E; apply Ny, nval_0, E). rewrite (proj2 (Z.eqb_neq (nval y) 0) V), Bool.andb_false_r. f_equal.
  pose proof (nval_lt y) as L. change PRIME_Q with ev_q. rewrite (Z.mod_small _ _ L). unfold nsub. rewrite nval_num, <- bn_q_val.
  change (nval (n0 : Num bn_q)) with 0. rewrite <- (Z.mod_small (ev_q - nval y) ev_q) by lia.
  replace (0 - nval y) with (ev_q - nval y + (-1) * ev_q) by ring. symmetry. apply Z_mod_plus_full.
Qed.
Lemma skipn_at {A} (l : list A) : forall n, (n < length l)%nat -> exists c, nth_error l n = Some c /\ skipn n l = c :: skipn (S n) l.
Proof.
  induction l as [|x l IH]; intros n H; [cbn in H; lia|]. destruct n as [|n]; [exists x; split; reflexivity|].
  destruct (IH n) as [c [E1 E2]]; [cbn in H; lia|]. exists c. split; [exact E1|exact E2].
Qed.
Section Calls.
Variable beyond : list Z -> list Z.
Lemma sol_plus_ok P Q : on1 P -> on1 Q -> sol_plus beyond (ev_words1 P) (ev_words1 Q) = Some (ev_words1 (wadd (fq bn_q) P Q)).
Proof. intros HP HQ. unfold sol_plus, ev_add. cbn [app firstn nth]. rewrite (word1_ok P HP). cbn [obind]. rewrite (word1_ok Q HQ). reflexivity. Qed.
Lemma sol_mul_ok P s : on1 P -> sol_scalar_mul beyond (ev_words1 P) s = Some (ev_words1 (ev_times (fq bn_q) s P)).
Proof. intros HP. unfold sol_scalar_mul, ev_mul. cbn [app firstn nth]. rewrite (word1_ok P HP). reflexivity. Qed.
Lemma times_on s P : on1 P -> on1 (ev_times (fq bn_q) s P).
Proof.
  intros HP. destruct s as [|k|k]; [exact I| |exact I]. cbn [ev_times]. rewrite (proj2 (proj2 (proj2 G1g)) k P HP). now apply (cg_iter _ _ G1g).
Qed.
Definition vk_sum (P : ecpt (Num bn_q)) (input : list Z) (ic : list (ecpt (Num bn_q))) : ecpt (Num bn_q) :=
  fold_left (fun acc sb => wadd (fq bn_q) acc (ev_times (fq bn_q) (fst sb) (snd sb))) (combine input ic) P.
Lemma vk_sum_on input : forall ic P, on1 P -> Forall on1 ic -> on1 (vk_sum P input ic).
Proof.
  induction input as [|s input IH]; intros ic P HP HC; [exact HP|]. destruct ic as [|c ic]; [exact HP|].
  inversion HC; subst. unfold vk_sum. cbn [combine fold_left]. apply IH; auto. apply (cg_on _ _ G1g); auto. now apply times_on.
Qed.
Lemma sol_inputs_ok (IC : list (ecpt (Num bn_q))) : Forall on1 IC -> forall input i P, on1 P -> (i + 1 + length input = length IC)%nat ->
  sol_inputs beyond (map ev_words1 IC) i input (ev_words1 P) =
  if forallb (fun s => s <? SNARK_SCALAR_FIELD) input then Some (ev_words1 (vk_sum P input (skipn (i + 1) IC))) else None.
Proof.
  intros HC. induction input as [|s input IH]; intros i P HP L; [reflexivity|]. cbn [length sol_inputs forallb] in *.
  destruct (s <? SNARK_SCALAR_FIELD); cbn [orequire obind andb]; [|reflexivity].
  destruct (skipn_at IC (i + 1)) as [c [E1 E2]]; [lia|]. rewrite E2. replace (S (i + 1)) with (S i + 1)%nat by lia.
  assert (Hc : on1 c) by (apply nth_error_In in E1; rewrite Forall_forall in HC; auto).
  rewrite nth_error_map, E1. cbn [option_map obind]. rewrite (sol_mul_ok c s Hc). cbn [obind]. rewrite (sol_plus_ok P _ HP (times_on s c Hc)). cbn [obind].
  rewrite IH; [|apply (cg_on _ _ G1g); auto; now apply times_on|lia]. reflexivity.
Qed.
End Calls.
Lemma negate_bad X Y : 0 <= X < ev_q -> 0 <= Y < ev_q -> ev_point1 X Y = None ->
  let w := sol_negate (X, Y) in ev_point1 (fst w) (snd w) = None.
Proof.
  intros HX HY. unfold ev_point1 at 1. rewrite (proj2 (Z.ltb_lt X _)), (proj2 (Z.ltb_lt Y _)) by lia. cbn [andb].
  unfold sol_negate. cbn [fst snd]. destruct ((X =? 0) && (Y =? 0)) eqn:B; [discriminate|]. destruct is_on_curve eqn:C; [discriminate|]. intros _. cbn [fst snd].
  change PRIME_Q with ev_q. rewrite (Z.mod_small _ _ HY). unfold ev_point1. destruct (Z.eq_dec Y 0) as [->|N].
  { rewrite Z.sub_0_r, Z.ltb_irrefl, Bool.andb_false_r. reflexivity. }
  rewrite (proj2 (Z.ltb_lt X _)), (proj2 (Z.ltb_lt (ev_q - Y) _)), (proj2 (Z.eqb_neq (ev_q - Y) 0)), Bool.andb_false_r by lia. cbn [andb].
  replace (is_on_curve (fq bn_q) (num X) (num (ev_q - Y)) false (num 3)) with (is_on_curve (fq bn_q) (num X) (num Y) false (num 3)); [now rewrite C|].
  unfold is_on_curve. cbn [fq keqb kmul kadd]. f_equal. rewrite num_sub. assert (Z0 : (num ev_q : Num bn_q) = n0) by (apply num_eq; reflexivity). rewrite Z0. ring.
Qed.

(** ** The pairing library as the verifier uses it *)
Record Bn256 := mkBn256 {
  bl_fk : Type;
  bl_add : Aff (Num bn_q) -> Aff (Num bn_q) -> Aff (Num bn_q);
  bl_zero : Aff (Num bn_q);
  bl_neg : Aff (Num bn_q) -> Aff (Num bn_q);
  bl_mul : Aff (Num bn_q) -> Z -> Aff (Num bn_q);
  bl_miller : list (Aff (Num bn_q) * Aff (Fq2 bn_q)) -> bl_fk;
  bl_final : bl_fk -> option bl_fk;
  bl_one : bl_fk;
  bl_eqb : bl_fk -> bl_fk -> bool }.
Definition bn_engine (L : Bn256) : Engine :=
  mkEngine (Aff (Num bn_q)) (Aff (Fq2 bn_q)) (bl_fk L) (bl_add L) (bl_zero L) (bl_neg L) (bl_mul L) (bl_miller L) (bl_final L) (bl_one L) (bl_eqb L).
(** It computes in the group of the curve, and its pairing product of points of the two groups
    is one exactly when the precompiled contract says so. *)
Definition bn_ok (L : Bn256) (check : list (ecpt (Num bn_q) * ecpt (Fq2 bn_q)) -> bool) : Prop :=
  (forall a b, on1 (aff_pt a) -> on1 (aff_pt b) -> aff_pt (bl_add L a b) = wadd (fq bn_q) (aff_pt a) (aff_pt b)) /\
  (forall a, on1 (aff_pt a) -> aff_pt (bl_neg L a) = wneg (fq bn_q) (aff_pt a)) /\
  (forall a, on1 (aff_pt a) -> aff_pt (bl_mul L a 0) = None /\ forall k, aff_pt (bl_mul L a (Zpos k)) = Pos.iter (wadd (fq bn_q) (aff_pt a)) None k) /\
  (forall l, Forall (fun ab => on1 (aff_pt (fst ab)) /\ on2 (aff_pt (snd ab)) /\ wmul (fq2 bn_q) bn_ord (aff_pt (snd ab)) = None) l ->
     exists f, bl_final L (bl_miller L l) = Some f /\ bl_eqb L f (bl_one L) = check (map (fun ab => (aff_pt (fst ab), aff_pt (snd ab))) l)).
(** A key: points of the two groups *)
Definition key_ok (vk : VK (Aff (Num bn_q)) (Aff (Fq2 bn_q))) : Prop :=
  on1 (aff_pt (vk_alpha vk)) /\ Forall (fun a => on1 (aff_pt a)) (vk_ic vk) /\
  Forall (fun b => on2 (aff_pt b) /\ wmul (fq2 bn_q) bn_ord (aff_pt b) = None) [vk_beta vk; vk_gamma vk; vk_delta vk].

Section Agree.
Context (L : Bn256) (check : list (ecpt (Num bn_q) * ecpt (Fq2 bn_q)) -> bool) (HL : bn_ok L check).
Lemma mul_times a s : on1 (aff_pt a) -> 0 <= s -> aff_pt (bl_mul L a s) = ev_times (fq bn_q) s (aff_pt a).
Proof.
  intros Ha Hs. destruct HL as [_ [_ [M _]]]. destruct (M a Ha) as [M0 M1]. destruct s as [|k|k]; [exact M0| |lia].
  cbn [ev_times]. rewrite M1. symmetry. now apply (proj2 (proj2 (proj2 G1g))).
Qed.
Lemma acc_ok (inputs : list (Num bn_ord)) : forall ic a, on1 (aff_pt a) -> Forall (fun a => on1 (aff_pt a)) ic ->
  let r := fold_left (fun acc ib => bl_add L acc (bl_mul L (snd ib) (nval (fst ib)))) (combine inputs ic) a in
  on1 (aff_pt r) /\ aff_pt r = vk_sum (aff_pt a) (map nval inputs) (map aff_pt ic).
Proof.
  induction inputs as [|s inputs IH]; intros ic a Ha HC; [split; [exact Ha|reflexivity]|].
  destruct ic as [|c ic]; [split; [exact Ha|reflexivity]|]. inversion HC; subst. cbn [combine map fold_left fst snd].
  assert (M : aff_pt (bl_mul L c (nval s)) = ev_times (fq bn_q) (nval s) (aff_pt c)) by (apply mul_times; auto; apply nval_range).
  assert (T : on1 (aff_pt (bl_mul L c (nval s)))) by (rewrite M; now apply times_on).
  assert (A : aff_pt (bl_add L a (bl_mul L c (nval s))) = wadd (fq bn_q) (aff_pt a) (ev_times (fq bn_q) (nval s) (aff_pt c))) by (rewrite <- M; now apply HL).
  destruct (IH ic (bl_add L a (bl_mul L c (nval s)))) as [I1 I2]; auto.
  - rewrite A. apply (cg_on _ _ G1g); auto. rewrite <- M. exact T.
  - split; [exact I1|]. etransitivity; [exact I2|]. unfold vk_sum. cbn [combine map fold_left fst snd]. now rewrite A.
Qed.
Lemma verify_ok vk pf (inputs : list (Num bn_ord)) : key_ok vk -> (length inputs + 1 = length (vk_ic vk))%nat ->
  on1 (aff_pt (pf_a pf)) -> on1 (aff_pt (pf_c pf)) -> on2 (aff_pt (pf_b pf)) -> wmul (fq2 bn_q) bn_ord (aff_pt (pf_b pf)) = None ->
  exists ic0 ic, vk_ic vk = ic0 :: ic /\
  verify (bn_engine L) vk pf inputs = Ok (Some (check
    [(wneg (fq bn_q) (aff_pt (pf_a pf)), aff_pt (pf_b pf)); (aff_pt (vk_alpha vk), aff_pt (vk_beta vk));
     (vk_sum (aff_pt ic0) (map nval inputs) (map aff_pt ic), aff_pt (vk_gamma vk)); (aff_pt (pf_c pf), aff_pt (vk_delta vk))])).
Proof.
  intros [K1 [K2 K3]] Len A C B Bo. inversion K3 as [|? ? [B1 B2] K4]; subst. inversion K4 as [|? ? [B3 B4] K5]; subst. inversion K5 as [|? ? [B5 B6] _]; subst.
  destruct (vk_ic vk) as [|ic0 ic] eqn:Ei; [cbn in Len; lia|]. exists ic0, ic. split; [reflexivity|].
  unfold verify. cbn [bn_engine eG1 eG2]. rewrite Ei, (proj2 (Nat.eqb_eq _ _)) by exact Len. cbn [negb nth_error unwrap rbind skipn bn_engine e1add e1mul e1neg e_miller e_final ek_eqb ek_one eG1 eG2 eFk].
  inversion K2; subst. destruct (acc_ok inputs ic ic0) as [S1 S2]; auto.
  set (acc := fold_left _ _ _) in *.
  assert (N : aff_pt (bl_neg L (pf_a pf)) = wneg (fq bn_q) (aff_pt (pf_a pf))) by (now apply HL).
  assert (Non : on1 (wneg (fq bn_q) (aff_pt (pf_a pf)))) by (apply (wneg_on (fq bn_q) n1 nneg finv (num_field prime_bn_q)); exact A).
  destruct (proj2 (proj2 (proj2 HL)) [(bl_neg L (pf_a pf), pf_b pf); (vk_alpha vk, vk_beta vk); (acc, vk_gamma vk); (pf_c pf, vk_delta vk)]) as [f [F1 F2]].
  - repeat constructor; cbn [fst snd]; auto. now rewrite N.
  - rewrite F1. cbn [unwrap rbind]. rewrite F2. cbn [map fst snd]. now rewrite N, S2.
Qed.

Lemma pairing_ok a (B : g2point) alpha beta X gamma c delta : on1 alpha -> on1 X ->
  on2 (aff_pt beta) -> wmul (fq2 bn_q) bn_ord (aff_pt beta) = None -> on2 (aff_pt gamma) -> wmul (fq2 bn_q) bn_ord (aff_pt gamma) = None ->
  on2 (aff_pt delta) -> wmul (fq2 bn_q) bn_ord (aff_pt delta) = None ->
  sol_pairing check a B (ev_words1 alpha) (g2_words (g2_data beta)) (ev_words1 X) (g2_words (g2_data gamma)) c (g2_words (g2_data delta)) =
  (P <-! ev_point1 (fst a) (snd a) ; Q <-! ev_point2 (fst (fst B)) (snd (fst B)) (fst (snd B)) (snd (snd B)) ; R <-! ev_point1 (fst c) (snd c) ;
   Some (check [(P, Q); (alpha, aff_pt beta); (X, aff_pt gamma); (R, aff_pt delta)])).
Proof.
  intros A1 A2 B1 B2 B3 B4 B5 B6. unfold sol_pairing. cbn [combine map concat app fst snd]. unfold ev_pairing. cbn [ev_pairs].
  pose proof (key_point2 beta B1 B2) as E1. pose proof (key_point2 gamma B3 B4) as E2. pose proof (key_point2 delta B5 B6) as E3. cbv zeta in E1, E2, E3.
  rewrite E1, E2, E3, (word1_ok alpha A1), (word1_ok X A2).
  destruct (ev_point1 (fst a) (snd a)) as [P|]; [|reflexivity]. cbn [obind].
  destruct (ev_point2 (fst (fst B)) (snd (fst B)) (fst (snd B)) (snd (snd B))) as [Q|]; [|reflexivity]. cbn [obind].
  destruct (ev_point1 (fst c) (snd c)) as [R|]; [|reflexivity]. cbn [obind].
  destruct (check _); reflexivity.
Qed.
End Agree.

(* C78 *)
(** The contract answers [b] on eight words and a list of inputs exactly when they are in
    range, the words are the data of a proof whose second point is in the subgroup, and the
    library's verifier answers [b] on that proof; in every other case it reverts. *)
Lemma claim_C78_contract : forall (L : Bn256) check, bn_ok L check -> forall vk, key_ok vk ->
  forall (beyond : list Z -> list Z) (p0 p1 p2 p3 p4 p5 p6 p7 : Z) (ins : list Z) (b : bool),
  let p := [p0; p1; p2; p3; p4; p5; p6; p7] in
  Forall (fun w => 0 <= w < 2 ^ 256) p -> Forall (fun w => 0 <= w < 2 ^ 256) ins -> (length ins + 1 = length (vk_ic vk))%nat ->
  (verifyProof check beyond (vk_data vk) p ins = Some b <->
   Forall (fun w => w < Zpos bn_q) p /\ Forall (fun s => s < Zpos bn_ord) ins /\
   exists pf, pf_of_data bn_g1 bn_g2 (mkPD (num p0, num p1) ((num p2, num p3), (num p4, num p5)) (num p6, num p7)) = Ok pf /\
     Pos.iter (wadd (fq2 bn_q) (aff_pt (pf_b pf))) None bn_ord = None /\
     verify (bn_engine L) vk pf (map (@num bn_ord) ins) = Ok (Some b)).
Proof.
  intros L check HL vk K beyond p0 p1 p2 p3 p4 p5 p6 p7 ins b p Hp Hi Len.
  assert (FB : forall (m : Z) l, forallb (fun w => w <? m) l = true <-> Forall (fun w => w < m) l).
  { intros m l. rewrite forallb_forall, Forall_forall. split; intros H x Hx; specialize (H x Hx); now apply Z.ltb_lt. }
  unfold verifyProof. change PRIME_Q with (Zpos bn_q).
  destruct (forallb (fun w => w <? Zpos bn_q) p) eqn:Fp; cbn [orequire obind].
  2:{ split; [discriminate|]. intros [C _]. apply FB in C. congruence. }
  apply FB in Fp.
  assert (R : forall x, In x p -> 0 <= x < ev_q).
  { intros x Hx. rewrite Forall_forall in Hp, Fp. specialize (Hp x Hx). specialize (Fp x Hx). rewrite bn_q_val. split; [apply Hp|exact Fp]. }
  assert (R0 := R p0 ltac:(cbn; tauto)). assert (R1 := R p1 ltac:(cbn; tauto)). assert (R2 := R p2 ltac:(cbn; tauto)). assert (R3 := R p3 ltac:(cbn; tauto)).
  assert (R4 := R p4 ltac:(cbn; tauto)). assert (R5 := R p5 ltac:(cbn; tauto)). assert (R6 := R p6 ltac:(cbn; tauto)). assert (R7 := R p7 ltac:(cbn; tauto)). clear R.
  unfold p. cbn [nth]. cbn [verifyingKey sv_IC sv_alfa1 sv_beta2 sv_gamma2 sv_delta2 vk_data vd_alpha vd_beta vd_gamma vd_delta vd_ic]. cbv zeta.
  destruct K as [K1 [K2 K3]]. pose proof K3 as K3'. inversion K3' as [|? ? [B1 B2] K4]; subst. inversion K4 as [|? ? [B3 B4] K5]; subst. inversion K5 as [|? ? [B5 B6] _]; subst.
  assert (EI : map g1_words (map g1_data (vk_ic vk)) = map ev_words1 (map aff_pt (vk_ic vk))) by (rewrite !map_map; apply map_ext; intros a; apply key_word1).
  rewrite EI, key_word1. clear EI.
  assert (HC : Forall on1 (map aff_pt (vk_ic vk))) by (rewrite Forall_map; exact K2).
  destruct (vk_ic vk) as [|ic0 ic] eqn:Ei; [cbn in Len; lia|]. cbn [map nth_error obind].
  assert (H0 : on1 (aff_pt ic0)) by (inversion K2; auto).
  change (0, 0) with (ev_words1 None). rewrite (sol_plus_ok beyond None (aff_pt ic0) I H0). cbn [obind wadd].
  change (ev_words1 (aff_pt ic0) :: map ev_words1 (map aff_pt ic)) with (map ev_words1 (aff_pt ic0 :: map aff_pt ic)).
  rewrite (sol_inputs_ok beyond (aff_pt ic0 :: map aff_pt ic) HC ins 0 (aff_pt ic0) H0) by (cbn [length] in *; rewrite map_length; lia).
  change SNARK_SCALAR_FIELD with (Zpos bn_ord).
  destruct (forallb (fun s => s <? Zpos bn_ord) ins) eqn:Fi; cbn [obind].
  2:{ split; [discriminate|]. intros [_ [C _]]. apply FB in C. congruence. }
  apply FB in Fi. cbn [Nat.add skipn].
  set (X := vk_sum (aff_pt ic0) ins (map aff_pt ic)).
  assert (HX : on1 X) by (apply vk_sum_on; auto; inversion HC; auto).
  rewrite (pairing_ok check) by auto. cbn [fst snd].
  pose proof (point1_data p0 p1 R0 R1) as PA. pose proof (point1_data p6 p7 R6 R7) as PC. pose proof (point2_data p2 p3 p4 p5 R2 R3 R4 R5) as PB.
  unfold pf_of_data. cbn [pd_a pd_b pd_c].
  destruct (bn_g1 (num p0, num p1)) as [a|].
  2:{ pose proof (negate_bad p0 p1 R0 R1 PA) as N. cbv zeta in N. rewrite N. cbn [obind]. split; [discriminate|]. intros [_ [_ [pf [E _]]]]. discriminate. }
  destruct PA as [_ [PA PA']]. rewrite <- PA', (sol_negate_ok _ PA).
  assert (Non : on1 (wneg (fq bn_q) (aff_pt a))) by (apply (wneg_on (fq bn_q) n1 nneg finv (num_field prime_bn_q)); exact PA).
  rewrite (word1_ok _ Non). cbn [obind rbind].
  destruct (bn_g2 (num p2, num p3, (num p4, num p5))) as [bb|].
  2:{ rewrite PB. cbn [obind]. split; [discriminate|]. intros [_ [_ [pf [E _]]]]. discriminate. }
  destruct PB as [PB PB']. cbn [rbind].
  destruct (bn_g1 (num p6, num p7)) as [c|].
  2:{ rewrite PC. rewrite PB'. split; [destruct (wmul (fq2 bn_q) bn_ord (aff_pt bb)); cbn [obind]; discriminate|]. intros [_ [_ [pf [E _]]]]. discriminate. }
  destruct PC as [PC [PC' _]]. cbn [rbind]. rewrite PC, PB'.
  assert (It : Pos.iter (wadd (fq2 bn_q) (aff_pt bb)) None bn_ord = wmul (fq2 bn_q) bn_ord (aff_pt bb)) by (symmetry; now apply (proj2 (proj2 (proj2 G2g)))).
  assert (MV : map nval (map (@num bn_ord) ins) = ins).
  { rewrite map_map. rewrite <- (map_id ins) at 2. apply map_ext_in. intros s Hs. rewrite nval_num. apply Z.mod_small.
    rewrite Forall_forall in Hi, Fi. specialize (Hi s Hs). specialize (Fi s Hs). split; [apply Hi|exact Fi]. }
  destruct (wmul (fq2 bn_q) bn_ord (aff_pt bb)) as [z|] eqn:Eo.
  { cbn [obind]. split; [discriminate|]. intros [_ [_ [pf [E [O _]]]]]. assert (pf = mkPf a bb c) as -> by congruence. cbn [pf_b] in O. congruence. }
  cbn [obind].
  destruct (verify_ok L check HL vk (mkPf a bb c) (map num ins)) as [i0 [i1 [J1 J2]]]; auto.
  { split; [exact K1|]. split; [rewrite Ei; exact K2|exact K3]. }
  { rewrite map_length, Ei. exact Len. }
  rewrite Ei in J1. assert (i0 = ic0 /\ i1 = ic) as [-> ->] by (split; congruence). rewrite MV in J2. cbn [pf_a pf_b pf_c] in J2.
  fold X in J2. split.
  - intros E. split; [exact Fp|]. split; [exact Fi|]. exists (mkPf a bb c). split; [reflexivity|]. split; [exact It|]. rewrite J2. exact (f_equal Ok E).
  - intros [_ [_ [pf [E [_ V]]]]]. assert (pf = mkPf a bb c) as -> by congruence. rewrite J2 in V. exact (f_equal (fun r => match r with Ok o => o | Panic => None end) V).
Qed.

(** The words of a proof and its inputs, as the binding for Ethereum writes them, and the
    verdicts. Proofs whose second point is outside the subgroup are always refused. *)
Definition proof_words (pf : Proof_ (Aff (Num bn_q)) (Aff (Fq2 bn_q))) : list Z :=
  let '(mkPD (ax, ay) ((bx1, bx0), (by1, by0)) (cx, cy)) := pf_data pf in map nval [ax; ay; bx1; bx0; by1; by0; cx; cy].
Lemma nval_word {q : positive} (x : Num q) : Zpos q < 2 ^ 256 -> 0 <= nval x < 2 ^ 256.
Proof. intros H. pose proof (nval_range x). lia. Qed.
Lemma claim_C78_proofs : forall (L : Bn256) check, bn_ok L check -> forall vk, key_ok vk ->
  forall (beyond : list Z -> list Z) pf (inputs : list (Num bn_ord)), (length inputs + 1 = length (vk_ic vk))%nat ->
  on1 (aff_pt (pf_a pf)) -> on2 (aff_pt (pf_b pf)) -> on1 (aff_pt (pf_c pf)) ->
  (Pos.iter (wadd (fq2 bn_q) (aff_pt (pf_b pf))) None bn_ord = None -> exists b : bool,
     verify (bn_engine L) vk pf inputs = Ok (Some b) /\ verifyProof check beyond (vk_data vk) (proof_words pf) (map nval inputs) = Some b) /\
  (Pos.iter (wadd (fq2 bn_q) (aff_pt (pf_b pf))) None bn_ord <> None -> verifyProof check beyond (vk_data vk) (proof_words pf) (map nval inputs) = None).
Proof.
  intros L check HL vk K beyond pf inputs Len A B C.
  assert (RA : bn_g1 (g1_data (pf_a pf)) = Ok (if ainf (pf_a pf) then mkAff n0 n0 true else pf_a pf)).
  { unfold bn_g1. apply g1_roundtrip; [exact bn_b_nz|]. intros E. unfold aff_pt in A. rewrite E in A. rewrite bn_b_eq. exact A. }
  assert (RC : bn_g1 (g1_data (pf_c pf)) = Ok (if ainf (pf_c pf) then mkAff n0 n0 true else pf_c pf)).
  { unfold bn_g1. apply g1_roundtrip; [exact bn_b_nz|]. intros E. unfold aff_pt in C. rewrite E in C. rewrite bn_b_eq. exact C. }
  assert (RB : bn_g2 (g2_data (pf_b pf)) = Ok (if ainf (pf_b pf) then mkAff q2zero q2zero true else pf_b pf)).
  { unfold bn_g2. apply g2_roundtrip; [exact bn_b2_nz|]. intros E. unfold aff_pt in B. rewrite E in B. exact B. }
  assert (P1 : forall a : Aff (Num bn_q), aff_pt (if ainf a then mkAff n0 n0 true else a) = aff_pt a) by (intros a; unfold aff_pt; destruct (ainf a) eqn:Ei; [reflexivity|now rewrite Ei]).
  assert (P2 : forall a : Aff (Fq2 bn_q), aff_pt (if ainf a then mkAff q2zero q2zero true else a) = aff_pt a) by (intros a; unfold aff_pt; destruct (ainf a) eqn:Ei; [reflexivity|now rewrite Ei]).
  assert (PF : pf_of_data bn_g1 bn_g2 (pf_data pf) = Ok (mkPf (if ainf (pf_a pf) then mkAff n0 n0 true else pf_a pf) (if ainf (pf_b pf) then mkAff q2zero q2zero true else pf_b pf) (if ainf (pf_c pf) then mkAff n0 n0 true else pf_c pf))).
  { unfold pf_of_data, pf_data. cbn [pd_a pd_b pd_c]. rewrite RA. cbn [rbind]. rewrite RB. cbn [rbind]. now rewrite RC. }
  clear RA RB RC. set (pf' := mkPf _ _ _) in PF.
  assert (Qa : aff_pt (pf_a pf') = aff_pt (pf_a pf)) by apply P1. assert (Qb : aff_pt (pf_b pf') = aff_pt (pf_b pf)) by apply P2. assert (Qc : aff_pt (pf_c pf') = aff_pt (pf_c pf)) by apply P1.
  clearbody pf'. unfold proof_words. destruct (pf_data pf) as [[p0 p1] [[p2 p3] [p4 p5]] [p6 p7]]. cbn [map].
  assert (MN : map (@num bn_ord) (map nval inputs) = inputs) by (rewrite map_map; etransitivity; [|apply map_id]; apply map_ext; intros; apply num_nval).
  pose proof (claim_C78_contract L check HL vk K beyond (nval p0) (nval p1) (nval p2) (nval p3) (nval p4) (nval p5) (nval p6) (nval p7) (map nval inputs)) as M.
  rewrite !num_nval, MN in M. cbv zeta in M.
  assert (W : Forall (fun w => 0 <= w < 2 ^ 256) [nval p0; nval p1; nval p2; nval p3; nval p4; nval p5; nval p6; nval p7]) by (repeat constructor; apply nval_word; reflexivity).
  assert (W' : Forall (fun w => 0 <= w < 2 ^ 256) (map nval inputs)) by (rewrite Forall_map, Forall_forall; intros x _; apply nval_word; reflexivity).
  assert (Len' : (length (map nval inputs) + 1 = length (vk_ic vk))%nat) by (now rewrite map_length).
  rewrite <- Qa in A. rewrite <- Qb in B. rewrite <- Qc in C. rewrite <- Qb. split.
  - intros O. assert (O' : wmul (fq2 bn_q) bn_ord (aff_pt (pf_b pf')) = None) by (rewrite (proj2 (proj2 (proj2 G2g)) bn_ord _ B); exact O).
    destruct (verify_ok L check HL vk pf' inputs K Len A C B O') as [i0 [i1 [E1 E2]]].
    rewrite Qa in A. rewrite Qb in B, O'. rewrite Qc in C. destruct (verify_ok L check HL vk pf inputs K Len A C B O') as [j0 [j1 [F1 F2]]].
    eexists. split; [exact F2|]. apply (M _ W W' Len'). split; [repeat constructor; apply nval_range|]. split; [rewrite Forall_map, Forall_forall; intros; apply nval_range|].
    exists pf'. split; [exact PF|]. split; [exact O|]. rewrite E2. rewrite Qa, Qb, Qc. assert (i0 = j0 /\ i1 = j1) as [-> ->] by (split; congruence). reflexivity.
  - intros O. destruct (verifyProof _ _ _ _ _) as [b|] eqn:E; [|reflexivity]. exfalso. destruct (proj1 (M b W W' Len') eq_refl) as [_ [_ [pf2 [E2 [O2 _]]]]].
    assert (pf2 = pf') as -> by congruence. contradiction.
Qed.

(** A library of which nothing is asked outside the two groups *)
Definition lib_of (check : list (ecpt (Num bn_q) * ecpt (Fq2 bn_q)) -> bool) : Bn256 := mkBn256 bool
  (fun a b => match wadd (fq bn_q) (aff_pt a) (aff_pt b) with Some (x, y) => mkAff x y false | None => mkAff n0 n1 true end)
  (mkAff n0 n1 true)
  (fun a => match wneg (fq bn_q) (aff_pt a) with Some (x, y) => mkAff x y false | None => mkAff n0 n1 true end)
  (fun a s => match ev_times (fq bn_q) s (aff_pt a) with Some (x, y) => mkAff x y false | None => mkAff n0 n1 true end)
  (fun l => check (map (fun ab => (aff_pt (fst ab), aff_pt (snd ab))) l)) Some true Bool.eqb.
Lemma lib_ok check : bn_ok (lib_of check) check.
Proof.
  assert (E : forall P : ecpt (Num bn_q), aff_pt (match P with Some (x, y) => mkAff x y false | None => mkAff n0 n1 true end) = P) by (intros [[x y]|]; reflexivity).
  split; [intros; apply E|]. split; [intros; apply E|]. split.
  - intros a Ha. split; [exact (E None)|]. intros k. etransitivity; [exact (E (ev_times (fq bn_q) (Zpos k) (aff_pt a)))|]. cbn [ev_times]. now apply (proj2 (proj2 (proj2 G1g))).
  - intros l _. eexists. split; [reflexivity|]. cbn [bl_eqb bl_one bl_miller lib_of]. now destruct (check _).
Qed.
Definition inf1 : Aff (Num bn_q) := mkAff n0 n1 true.
Definition inf2 : Aff (Fq2 bn_q) := mkAff q2zero q2zero true.
Definition gen1 : Aff (Num bn_q) := mkAff (num 1) (num 2) false.
Definition some_key : VK (Aff (Num bn_q)) (Aff (Fq2 bn_q)) := mkVK gen1 inf2 inf2 inf2 [gen1; inf1; gen1].
Lemma gen1_on : on1 (aff_pt gen1).
Proof. cbn. apply num_eq. reflexivity. Qed.
Lemma some_key_ok : key_ok some_key.
Proof.
  split; [exact gen1_on|]. split; [repeat constructor; exact gen1_on|].
  assert (X : on2 (aff_pt inf2) /\ wmul (fq2 bn_q) bn_ord (aff_pt inf2) = None) by (split; [exact I|apply wmul_inf]). repeat constructor; apply X.
Qed.
Lemma pf_of_data_panic {q} (g1 : G1Data q -> res (Aff (Num q))) (g2 : G2Data q -> res (Aff (Fq2 q))) d : g1 (pd_a d) = Panic -> pf_of_data g1 g2 d = Panic.
Proof. intros E. unfold pf_of_data. now rewrite E. Qed.
Lemma case_C78_contract : let check := fun l : list (ecpt (Num bn_q) * ecpt (Fq2 bn_q)) => Nat.eqb (length l) 4 in
  bn_ok (lib_of check) check /\ key_ok some_key /\ Forall (fun w => 0 <= w < 2 ^ 256) [1; 2; 0; 0; 0; 0; 1; 2] /\ Forall (fun w => 0 <= w < 2 ^ 256) [3; 4] /\
  (length [3; 4] + 1 = length (vk_ic some_key))%nat /\
  verifyProof check (fun _ => []) (vk_data some_key) [1; 2; 0; 0; 0; 0; 1; 2] [3; 4] = Some true /\
  verifyProof check (fun _ => []) (vk_data some_key) [1; 3; 0; 0; 0; 0; 1; 2] [3; 4] = None.
Proof.
  intros check. assert (W : forall z, 0 <= z < 10 -> 0 <= z < 2 ^ 256) by (intros; lia).
  assert (W1 : Forall (fun w => 0 <= w < 2 ^ 256) [1; 2; 0; 0; 0; 0; 1; 2]) by (repeat constructor; lia).
  assert (W2 : Forall (fun w => 0 <= w < 2 ^ 256) [3; 4]) by (repeat constructor; lia).
  split; [apply lib_ok|]. split; [exact some_key_ok|]. split; [exact W1|]. split; [exact W2|]. split; [reflexivity|].
  assert (A : bn_g1 (num 1, num 2) = Ok gen1).
  { pose proof (g1_roundtrip (num 3) gen1 ltac:(apply num_nonzero; split; reflexivity) (fun _ => gen1_on)) as R. unfold bn_g1. rewrite bn_b_eq. exact R. }
  assert (B : bn_g2 ((num 0, num 0), (num 0, num 0)) = Ok inf2) by (pose proof (g2_roundtrip bn_b2 inf2 bn_b2_nz ltac:(discriminate)) as R; exact R).
  split.
  - apply (claim_C78_contract (lib_of check) check (lib_ok check) some_key some_key_ok (fun _ => []) 1 2 0 0 0 0 1 2 [3; 4] true W1 W2 eq_refl).
    split; [repeat constructor|]. split; [repeat constructor|]. exists (mkPf gen1 inf2 gen1). split; [|split].
    + unfold pf_of_data. cbn [pd_a pd_b pd_c]. rewrite A. cbn [rbind]. rewrite B. reflexivity.
    + apply (cg_iter_none _ _ G2g).
    + destruct (verify_ok (lib_of check) check (lib_ok check) some_key (mkPf gen1 inf2 gen1) (map num [3; 4])) as [i0 [i1 [_ E]]]; [exact some_key_ok|reflexivity|exact gen1_on|exact gen1_on|exact I|apply wmul_inf|].
      rewrite E. reflexivity.
  - assert (W3 : Forall (fun w => 0 <= w < 2 ^ 256) [1; 3; 0; 0; 0; 0; 1; 2]) by (repeat constructor; lia).
    destruct (verifyProof check (fun _ => []) (vk_data some_key) [1; 3; 0; 0; 0; 0; 1; 2] [3; 4]) as [b|] eqn:E; [|reflexivity]. exfalso.
    apply (claim_C78_contract (lib_of check) check (lib_ok check) some_key some_key_ok (fun _ => []) 1 3 0 0 0 0 1 2 [3; 4] b W3 W2 eq_refl) in E.
    destruct E as [_ [_ [pf [E _]]]].
    rewrite pf_of_data_panic in E; [discriminate|]. apply (proj1 claim_C51_rejected (num 1) (num 3)).
    + intros [X _]. revert X. apply num_nonzero. split; reflexivity.
    + intros X. apply neqb_eq in X. vm_compute in X. discriminate.
Qed.
Lemma case_C78_proofs : key_ok some_key /\ on1 (aff_pt gen1) /\ on2 (aff_pt inf2) /\ proof_words (mkPf gen1 inf2 inf1) = [1; 2; 0; 0; 0; 0; 0; 0].
Proof. split; [exact some_key_ok|]. split; [exact gen1_on|]. split; [exact I|]. vm_compute. reflexivity. Qed.
(** On other data that the library accepts the two may differ: a proof with its second point
    outside the subgroup passes the library's verifier and makes the contract revert. *)
Lemma claim_C78_subgroup_refuted : exists (L : Bn256) check vk d pf (inputs : list (Num bn_ord)), bn_ok L check /\ key_ok vk /\
  (length inputs + 1 = length (vk_ic vk))%nat /\ pf_of_data bn_g1 bn_g2 d = Ok pf /\ verify (bn_engine L) vk pf inputs = Ok (Some true) /\
  forall beyond, verifyProof check beyond (vk_data vk) (proof_words pf) (map nval inputs) = None.
Proof.
  destruct claim_C52_bn_subgroup_refuted as [d [a [E O]]].
  exists (lib_of (fun _ => true)), (fun _ => true), some_key, (mkPD (n0, n0) d (n0, n0)), (mkPf (mkAff n0 n0 true) a (mkAff n0 n0 true)), [n1; n1].
  assert (Z : bn_g1 (n0, n0) = Ok (mkAff n0 n0 true)) by exact (g1_roundtrip bn_b inf1 bn_b_nz ltac:(discriminate)).
  split; [apply lib_ok|]. split; [exact some_key_ok|]. split; [reflexivity|]. split.
  { unfold pf_of_data. cbn [pd_a pd_b pd_c]. rewrite Z. cbn [rbind]. rewrite E. reflexivity. }
  split; [reflexivity|].
  intros beyond.
  assert (Ca : on2 (aff_pt a)).
  { destruct (proj1 (proj2 claim_C51_accepted) d a E) as [_ X]. unfold aff_pt. destruct (ainf a); [exact I|]. destruct X as [X|X]; [discriminate|exact X]. }
  apply (claim_C78_proofs (lib_of (fun _ => true)) (fun _ => true) (lib_ok _) some_key some_key_ok beyond (mkPf (mkAff n0 n0 true) a (mkAff n0 n0 true)) [n1; n1] eq_refl I Ca I).
  cbn [pf_b]. rewrite <- (proj2 (proj2 (proj2 G2g)) bn_ord _ Ca). unfold in_order in O. destruct (wmul (fq2 bn_q) bn_ord (aff_pt a)); [discriminate|discriminate O].
Qed.
