(** What circuit objects show: a public leaf and a public root, with and without the
    path bits asserted (C84 for the system the keys are made for); signatures. *)

From Verif Require Export MoreClaims SystemClaims.
Open Scope num_scope.

Section Open.
Context {p l : positive} (sqrt : Num p -> option (Num p)) (PP : @PoseidonParams p) (J : JubJub p l) (H : params_ok sqrt PP J).
Notation F := (Num p).
Let Hp := j_p _ (k_j _ _ _ H).
Add Field op_field : (num_field Hp) (morphism (@num_morph p), constants [num_cst], power_tac (@num_power p) [num_pow_cst]).

(** A circuit that finds its witnesses gives an assignment for the system of the keys. *)
Lemma statement_fills ops tp ts vp vs : (forall a, ~ In (oInputize a) ops) -> Forall limits ops ->
  length vp = tsize tp -> length vs = tsize ts -> fills sqrt PP J ops vp vs -> statement ops sqrt PP J tp ts vp.
Proof using H.
  intros HI HL L1 L2 HF.
  destruct (claim_C62_groth16 p _ (flat_main sqrt PP J ops (map Some vp) (map Some vs))) as [[tr [o [He N]]] G].
  destruct (flat_complete sqrt PP J H ops vp vs tr o HF He) as [s [S1 [Hh [Hs [-> [_ HV]]]]]]. specialize (HV HI).
  destruct (G tr _ He N) as [_ [GP _]]. destruct (honest_vals tr s Hh) as [E1 E2].
  set (P := Backends.mkP (1 :: map s (map fst (inputs tr))) (map s (map fst (auxs tr))) (constraints tr)).
  assert (EP : prove_system (flat_main sqrt PP J ops (map Some vp) (map Some vs)) = Ok (P, tt)).
  { apply GP. split; [reflexivity|]. eexists _, _. split; [exact E1|]. split; [exact E2|reflexivity]. }
  assert (Hn : (2 <= num_bits p)%nat) by (pose proof (l_bits J (k_j _ _ _ H) (k_8 _ _ _ H) (k_bits _ _ _ H)); pose proof (k_bits _ _ _ H); lia).
  pose proof (shp_flat sqrt PP J ops (map Some vp) (map Some vs) Hn HL) as HS. rewrite !map_length, L1, L2 in HS.
  destruct (shp_asm _ _ _ _ HS keyasm_new proveasm_new P tt) as [T1 T2]; [repeat split|exact EP|]. specialize (T1 eq_refl).
  pose proof (peq_gk_run _ _ _ (flat_none sqrt PP J ops tp ts) keyasm_new) as Y.
  destruct (gk_run (flat_main sqrt PP J ops _ _) keyasm_new) as [[K u2]|]; [|congruence].
  destruct (gk_run (co_synthesize _ _ _ _ _) keyasm_new) as [[K' u3]|] eqn:EK; [|contradiction]. destruct Y as [-> _].
  destruct (T2 _ _ eq_refl) as [[A1 [A2 A3]] _].
  exists K, u3, s. split; [exact EK|]. split; [exact S1|]. split.
  - rewrite A1. cbn [P p_inputs length Nat.sub]. rewrite Nat.sub_0_r, !map_length, <- HV. destruct N as [N1 _]. rewrite N1, map_map. reflexivity.
  - rewrite A3. cbn [P p_cons]. now apply sys_sat_trace.
Qed.

(** Public: the root and the leaf. Secret: the siblings and the path. *)
Definition proof_ty (n : nat) : sty := TProd (TCons (TVec n TNum) (TCons (TVec n TBool) TNil)).
(** [member_ops] without the assertions on the path. *)
Definition open_ops (n : nat) : list (@op p) := [oMerkleProof 1 (seq 2 n) (seq (2 + n) n); oAssertEq 0 (2 + n + n)].

Lemma app_same_len {A} (a b c d : list A) : a ++ b = c ++ d -> length a = length c -> a = c /\ b = d.
Proof using Type. revert c. induction a as [|x a IH]; intros [|y c]; cbn; try discriminate; auto. intros E L. destruct (IH c) as [X Y]; [congruence|lia|]. split; congruence. Qed.
Lemma regs_block (X Y Z : list (CNum p)) : regs (X ++ Y ++ Z) (seq (length X) (length Y)) = Ret Y.
Proof using Type.
  unfold regs. revert X. induction Y as [|y Y IH]; intros X; cbn [length seq pmapM]; [reflexivity|].
  unfold reg at 1. rewrite nth_error_app2, Nat.sub_diag by lia. cbn [nth_error app unwrap plift pbind].
  specialize (IH (X ++ [y])). rewrite app_length, Nat.add_1_r, <- app_assoc in IH. cbn [length app] in IH. rewrite IH. reflexivity.
Qed.

Lemma open_circuit n a b (sib path : list (CNum p)) : length sib = n -> length path = n ->
  let R := [a; b] ++ sib ++ path in circuit sqrt PP J false (fun _ => None) (open_ops n) R =
    pbind (r1 (c_poseidon_merkle_proof_root PP b sib path)) (fun r => circuit sqrt PP J false (fun _ => None) [oAssertEq 0 (2 + n + n)] (R ++ r)).
Proof using Type.
  intros G1 G2 R. pose proof (regs_block [a; b] sib path) as B1. pose proof (regs_block ([a; b] ++ sib) path []) as B2.
  rewrite app_nil_r, <- app_assoc, app_length, G1, G2 in B2. rewrite G1 in B1. cbn [length] in B1, B2. fold R in B1, B2.
  unfold open_ops. cbn [circuit step]. rewrite B1, B2. reflexivity.
Qed.
Lemma open_wp md s U n a b sib path : md <> Setup -> okS s (mkst U 0) -> length sib = n -> length path = n ->
  let R := [a; b] ++ sib ++ path in Forall (good md s (mkst U 0)) R -> Forall (fun c => as_const c = None) path ->
  let is_line := line_root PP (ceval s b) (combine (map (ceval s) path) (map (ceval s) sib)) = Ok (ceval s a) in
  (md = Honest -> is_line) ->
  wp md s (mkst U 0) (circuit sqrt PP J false (fun _ => None) (open_ops n) R) (fun _ _ => is_line).
Proof using H.
  intros Hm HS G1 G2 R Gd Np is_line Hh. unfold R. rewrite (open_circuit n a b sib path G1 G2). fold R.
  assert (Lr : length R = (2 + n + n)%nat) by (unfold R; rewrite !app_length; cbn [length]; lia).
  unfold R in Gd. rewrite !Forall_app in Gd. destruct Gd as [Gab [Gs Gpa]].
  assert (Ga : good md s (mkst U 0) a) by now inversion_clear Gab.
  assert (Gb : good md s (mkst U 0) b) by (inversion_clear Gab as [|? ? _ X]; now inversion_clear X).
  eapply wp_use with (P := fun S1 r => exists c, r = [c] /\ good md s S1 c /\ line_root PP (ceval s b) (combine (map (ceval s) path) (map (ceval s) sib)) = Ok (ceval s c)).
  { unfold r1. eapply wp_use; [apply (wp_merkle_line Hp); auto|].
    - apply (combine_all (good md s (mkst U 0))); auto.
    - now apply combine_fst.
    - intros _. split; [exact (k_pp _ _ _ H)|pose proof (k_t _ _ _ H); lia].
    - intros S1 c _ [Gc Ec]. apply wp_ret. exists c. split; [reflexivity|]. split; [exact Gc|].
      rewrite combine_eval in Ec. auto. }
  intros S1 r I1 [c [-> [Gc Ec]]]. cbn [circuit step]. unfold reg.
  rewrite (nth_error_app2 R [c] (n := (2 + n + n)%nat)) by lia. rewrite Lr, Nat.sub_diag. cbn [R nth_error app unwrap plift pbind].
  unfold r0. eapply wp_use with (P := fun _ _ => is_line); [|intros S2 r2 _ X; now apply wp_ret].
  eapply wp_use; [apply (wp_assert_eq Hp)|].
  - split; [apply I1; apply HS|apply HS].
  - eapply good_incl; eauto.
  - exact Gc.
  - intros E. specialize (Hh E). unfold is_line in Hh. congruence.
  - congruence.
  - intros S2 r2 _ [E _]. apply wp_ret. unfold is_line. rewrite Ec, E by auto. reflexivity.
Qed.

Lemma open_fills n root lv sv pv : length sv = n -> length pv = n -> line_root PP lv (combine pv sv) = Ok root ->
  fills sqrt PP J (open_ops n) [root; lv] (sv ++ pv).
Proof using H.
  intros L1 L2 E U x y s0 tr o I0U S0 HO HV HN Ex Ey He.
  destruct x as [|a [|b [|? ?]]]; try discriminate Ex. cbn [map] in Ex. assert (Ea : ceval s0 a = root) by congruence. assert (Eb : ceval s0 b = lv) by congruence.
  destruct (list_split y n n) as [sib [path [-> [G1 G2]]]]; [rewrite <- (map_length (ceval s0)), Ey, app_length; lia|]. rewrite map_app in Ey.
  apply app_same_len in Ey; [|rewrite map_length; lia]. destruct Ey as [Es Epa]. clear Ex.
  assert (C : complete_for U (circuit sqrt PP J false (fun _ => None) (open_ops n) ([a; b] ++ sib ++ path))
    (fun s => Forall (valued s) ([a; b] ++ sib ++ path) /\ map (ceval s) ([a; b] ++ sib ++ path) = [root; lv] ++ sv ++ pv) (fun _ _ => True)).
  { apply wp_complete_for; auto.
    - intros s s' Ag [V M]. split; [eapply Forall_valued_ext; eauto|]. rewrite <- M. apply map_ceval_ext with (U := U); auto.
    - intros s HS [V M]. rewrite !map_app in M. cbn [map app] in M. assert (M1 : ceval s a = root) by congruence. assert (M2 : ceval s b = lv) by congruence.
      assert (M3 : map (ceval s) sib ++ map (ceval s) path = sv ++ pv) by congruence. apply app_same_len in M3; [|rewrite map_length; lia]. destruct M3 as [M3 M4].
      eapply wp_mono; [apply open_wp; auto with claims; try discriminate|auto].
      + rewrite !Forall_app in HN. apply HN.
      + intros _. rewrite M1, M2, M3, M4. exact E. }
  destruct (C s0 tr o S0) as [s [R' [A1 [A2 [A3 [A4 _]]]]]]; [split; [exact HV|rewrite !map_app; cbn [map]; congruence]|exact He|].
  exists s, R'. auto.
Qed.

Lemma open_sound n root lv : statement (open_ops n) sqrt PP J two_nums (proof_ty n) [root; lv] ->
  exists sv pv, length sv = n /\ length pv = n /\ line_root PP lv (combine pv sv) = Ok root.
Proof using H.
  intros [K [u [s [HK [S1 [EP Hs]]]]]].
  pose proof (peq_gk_run _ _ _ (flat_none sqrt PP J (open_ops n) two_nums (proof_ty n)) keyasm_new) as Y. unfold key_system in HK. rewrite HK in Y.
  destruct (gk_run (flat_main sqrt PP J (open_ops n) _ _) keyasm_new) as [[K' u']|] eqn:EK; [|contradiction]. destruct Y as [<- _].
  destruct (claim_C62_groth16 p _ (flat_main sqrt PP J (open_ops n) (repeat None (tsize two_nums)) (repeat None (tsize (proof_ty n))))) as [[tr [o [He N]]] G].
  destruct (G tr o He N) as [GK _]. apply GK in EK. destruct EK as [-> ->]. cbn [k_cons k_inputs] in *. clear G GK.
  apply sys_sat_trace in Hs. unfold flat_main in He.
  apply exec_bind in He. destruct He as [t1 [q1 [x [-> [X1 He]]]]]. apply exec_bind in He. destruct He as [t2 [q2 [y [-> [X2 He]]]]].
  apply exec_bind in He. destruct He as [t3 [t4 [R' [-> [X3 X4]]]]].
  apply sat_app in Hs. destruct Hs as [T1 Hs]. apply sat_app in Hs. destruct Hs as [T2 Hs]. apply sat_app in Hs. destruct Hs as [T3 T4].
  destruct (alloc_trace sqrt PP J H _ [I0] t1 x ltac:(now left) X1) as [L1 [O1 [N1 [E1 EC1]]]].
  assert (I1 : In I0 (vars t1 [I0])) by (apply vars_incl; now left).
  destruct (alloc_trace sqrt PP J H _ (vars t1 [I0]) t2 y I1 X2) as [L2 [O2 [N2 [E2 EC2]]]]. rewrite repeat_length in L1, L2.
  set (U := vars t2 (vars t1 [I0])) in *. assert (I2 : In I0 U) by now apply vars_incl.
  pose proof (iter_bound x _ _ _ X4 s S1 T4) as B.
  assert (HI : forall a, ~ In (oInputize (p := p) a) (open_ops n)) by (intros a [X|[X|[]]]; discriminate X).
  assert (E3 : inputs t3 = []). { eapply noin_inputs; [|exact X3]. now apply noin_circuit. }
  destruct N as [N _]. rewrite !inputs_app, E1, E2, E3 in N, EP. cbn [app length] in N, EP. cbn [Nat.add Nat.sub] in EP. try rewrite Nat.sub_0_r in EP.
  assert (Ex : map (ceval s) x = [root; lv]).
  { rewrite <- B, <- EP. transitivity (map s (map fst (inputs t4))); [now rewrite map_map|]. rewrite N, map_map. reflexivity. }
  destruct x as [|a [|b [|? ?]]]; try discriminate Ex. cbn [map] in Ex. assert (Ea : ceval s a = root) by congruence. assert (Eb : ceval s b = lv) by congruence.
  cbn [proof_ty tsize tsizes] in L2. destruct (list_split y n n) as [sib [path [-> [G1 G2]]]]; [lia|].
  assert (OR : Forall (owned U) ([a; b] ++ sib ++ path)).
  { apply Forall_app. split; [|exact O2]. eapply Forall_impl; [|exact O1]. intros c. apply owned_incl, vars_incl. }
  assert (Sd : sound_for U (circuit sqrt PP J false (fun _ => None) (open_ops n) ([a; b] ++ sib ++ path))
    (fun s _ => line_root PP (ceval s b) (combine (map (ceval s) path) (map (ceval s) sib)) = Ok (ceval s a))).
  { apply wp_sound_for; auto. intros s' HS. apply open_wp; auto with claims; try discriminate. apply Forall_app in N2. apply N2. }
  exists (map (ceval s) sib), (map (ceval s) path). rewrite !map_length. split; [exact G1|]. split; [exact G2|].
  rewrite <- Ea, <- Eb. exact (Sd s t3 R' S1 X3 T3).
Qed.

(** A true proof gives a line to any number off the midpoint. *)
Lemma line_to n (leaves : list F) lv root i : poseidon_merkle_tree_root PP leaves = Ok root -> (0 < n)%nat -> (length leaves <= 2 ^ n < 2 * length leaves)%nat ->
  (i < 2 ^ n)%nat -> nth i leaves 0 + nth (Nat.lxor i 1) leaves 0 <> lv + lv ->
  exists sv pv, length sv = n /\ length pv = n /\ line_root PP lv (combine pv sv) = Ok root.
Proof using H.
  intros R Ln [L2 L3] Hi N. pose proof (k_pp _ _ _ H) as HP. pose proof (k_t _ _ _ H) as Ht.
  destruct (claim_C26_tree_root_native p Hp PP HP ltac:(lia)) as [h [Hh T]].
  destruct (T leaves ltac:(lia)) as [T1 [T2 [T3 T4]]]. set (d := bit_len (length leaves - 1)) in *.
  assert (Ed : d = n).
  { pose proof (T3 _ L2) as T5. destruct (Nat.eq_dec d n) as [|Nd]; auto. exfalso.
    assert (Hx : (2 ^ (d + 1) <= 2 ^ n)%nat) by (apply Nat.pow_le_mono_r; lia).
    rewrite Nat.pow_add_r in Hx. cbn [Nat.pow] in Hx. lia. }
  specialize (T4 i ltac:(now rewrite Ed)). rewrite R, Ed in T4. destruct n as [|m]; [lia|].
  cbn [seq map] in T4. cbn [node] in T4. change (2 ^ 0)%nat with 1%nat in T4. rewrite Nat.div_1_r in T4.
  set (a := nth i leaves n0) in *. set (b := nth (Nat.lxor i 1) leaves n0) in *.
  set (sv := map (fun j => node h leaves j (Nat.lxor (i / 2 ^ j) 1)) (seq 1 m)) in *. set (bs := map (Nat.testbit i) (seq 1 m)) in *.
  assert (Lsv : length sv = m) by (unfold sv; now rewrite map_length, seq_length).
  assert (Lbs : length bs = m) by (unfold bs; now rewrite map_length, seq_length).
  set (b0 := Nat.testbit i 0) in *. set (z := if b0 then b else a).
  exists ((a + b - lv) :: sv), (fdiv (z - lv) (a + b - lv - lv) :: map nbool bs).
  split; [cbn; lia|]. split; [cbn; rewrite map_length; lia|].
  cbn [combine line_root]. cbv zeta.
  assert (Hd : a + b - lv - lv <> 0).
  { intros E. apply N. replace (a + b) with ((a + b - lv - lv) + (lv + lv)) by ring. rewrite E. ring. }
  replace (lv + fdiv (z - lv) (a + b - lv - lv) * (a + b - lv - lv)) with z by (field; auto).
  replace (lv + (a + b - lv) - z) with (a + b - z) by ring.
  assert (E : [z; a + b - z] = if b0 then [b; a] else [a; b]) by (unfold z; destruct b0; f_equal; f_equal; ring).
  rewrite E. unfold poseidon_merkle_proof_root in T4. cbn [combine merkle_proof_root] in T4.
  destruct (poseidon PP (if b0 then [b; a] else [a; b])) as [g|]; cbn [rbind] in *; [|discriminate].
  rewrite (line_root_bits Hp) by lia. congruence.
Qed.
End Open.

(* C84 *)
(** The application whose public values are a root and a leaf, with the path bits of
    the proof only allocated: the pairs it accepts, exactly. *)
Lemma claim_C84_open : forall (p l : positive) (sqrt : Num p -> option (Num p)) (PP : @PoseidonParams p) (J : JubJub p l) n root leaf, params_ok sqrt PP J ->
  statement (open_ops n) sqrt PP J two_nums (proof_ty n) [root; leaf] <->
  exists sv pv : list (Num p), length sv = n /\ length pv = n /\ line_root PP leaf (combine pv sv) = Ok root.
Proof.
  intros p l sqrt PP J n root leaf H. split; [apply open_sound; exact H|]. intros [sv [pv [L1 [L2 E]]]].
  apply (statement_fills sqrt PP J H) with (vs := sv ++ pv).
  - intros a [X|[X|[]]]; discriminate X.
  - repeat constructor.
  - reflexivity.
  - cbn [proof_ty tsize tsizes]. rewrite app_length. lia.
  - now apply open_fills.
Qed.
(** So it accepts the root of any tree of depth at least one with a number that need
    not be in the tree. *)
Lemma claim_C84_open_tree : forall (p l : positive) (sqrt : Num p -> option (Num p)) (PP : @PoseidonParams p) (J : JubJub p l) n leaves root leaf i, params_ok sqrt PP J ->
  poseidon_merkle_tree_root PP leaves = Ok root -> (0 < n)%nat -> (length leaves <= 2 ^ n < 2 * length leaves)%nat ->
  (i < 2 ^ n)%nat -> nth i leaves 0 + nth (Nat.lxor i 1) leaves 0 <> leaf + leaf ->
  statement (open_ops n) sqrt PP J two_nums (proof_ty n) [root; leaf].
Proof.
  intros p l sqrt PP J n leaves root leaf i H R Ln L Hi N. apply claim_C84_open; auto. exact (line_to sqrt PP J H n leaves leaf root i R Ln L Hi N).
Qed.
(** With [assert] called on the path bits first: the pairs with a native proof. *)
Lemma claim_C84_shown : forall (p l : positive) (sqrt : Num p -> option (Num p)) (PP : @PoseidonParams p) (J : JubJub p l) n root leaf, params_ok sqrt PP J ->
  statement (member_ops n) sqrt PP J two_nums (proof_ty n) [root; leaf] <->
  exists sib path, length sib = n /\ length path = n /\ poseidon_merkle_proof_root PP leaf sib path = Ok root.
Proof.
  intros p l sqrt PP J n root lv H.
  assert (HI : forall a, ~ In (oInputize (p := p) a) (member_ops n)).
  { intros a Hin. unfold member_ops in Hin. apply in_app_or in Hin. destruct Hin as [Hin|[X|[X|[]]]]; try discriminate X.
    apply in_map_iff in Hin. destruct Hin as [i [X _]]. discriminate X. }
  assert (Ln : length (member_ops (p := p) n) = (n + 2)%nat) by (unfold member_ops; rewrite app_length, map_length, seq_length; reflexivity).
  assert (En : nth_error (member_ops (p := p) n) n = Some (oMerkleProof 1 (seq 2 n) (seq (2 + n) n))).
  { unfold member_ops. rewrite nth_error_app2; rewrite map_length, seq_length; [now rewrite Nat.sub_diag|lia]. }
  assert (En1 : nth_error (member_ops (p := p) n) (n + 1) = Some (oAssertEq 0 (2 + n + n))).
  { unfold member_ops. rewrite nth_error_app2; rewrite map_length, seq_length; [|lia]. replace (n + 1 - n)%nat with 1%nat by lia. reflexivity. }
  (* what the Merkle call and the bits say *)
  assert (Core : forall s (x leaf : CNum p) sib path Rs, length sib = n -> length path = n ->
    meets_after sqrt PP J s ([x] ++ leaf :: sib ++ path) (firstn (n + 1) (member_ops n)) Rs ->
    exists r c b, concat Rs = [c] /\ ceval s c = r /\ map (ceval s) path = map nbool b /\ length b = n /\
      poseidon_merkle_proof_root PP (ceval s leaf) (map (ceval s) sib) b = Ok r).
  { intros s x leaf sib path Rs L1 L2 [L M]. rewrite firstn_length, Ln, Nat.min_l in L by lia.
    destruct (list_split Rs n 1 L) as [Rs0 [Rs1 [-> [G1 G2]]]]. destruct Rs1 as [|r [|? ?]]; try discriminate G2.
    assert (Ef : forall j, (j <= n)%nat -> nth_error (firstn (n + 1) (member_ops (p := p) n)) j = nth_error (member_ops n) j).
    { intros j Hj. apply nth_firstn. lia. }
    destruct (member_bits sqrt PP J n s x leaf sib path n Rs0 L1 L2 ltac:(lia)) as [Z [b Hb]].
    { split; [rewrite firstn_length, Ln; lia|]. intros j o r' Ej Er.
      assert (Hj : (j < n)%nat) by (rewrite <- G1; apply nth_error_Some; congruence).
      specialize (M j o r'). rewrite Ef in M by lia. rewrite nth_error_app1 in M by lia. rewrite firstn_app in M. replace (j - length Rs0)%nat with 0%nat in M by lia. cbn [firstn] in M. rewrite app_nil_r in M. apply M; [|exact Er].
      rewrite <- Ej. symmetry. now apply nth_firstn. }
    rewrite firstn_all2 in Hb by lia.
    specialize (M n (oMerkleProof 1 (seq 2 n) (seq (2 + n) n)) r). rewrite Ef in M by lia. specialize (M En). rewrite nth_error_app2 in M by lia.
    replace (n - length Rs0)%nat with 0%nat in M by lia. specialize (M eq_refl). cbv zeta in M. rewrite firstn_app in M. replace (n - length Rs0)%nat with 0%nat in M by lia.
    cbn [firstn] in M. rewrite app_nil_r in M. rewrite (firstn_all2 Rs0) in M by lia. rewrite Z, app_nil_r in M. cbn [means] in M. destruct M as [q [M1 M2]].
    rewrite !seq_length in M2. specialize (M2 eq_refl b). unfold bitsof in M2.
    pose proof (block (map (ceval s) ([x] ++ leaf :: sib ++ path)) [ceval s x; ceval s leaf] (map (ceval s) sib) (map (ceval s) path) 0 ltac:(cbn [app map]; now rewrite map_app)) as B1.
    pose proof (block (map (ceval s) ([x] ++ leaf :: sib ++ path)) ([ceval s x; ceval s leaf] ++ map (ceval s) sib) (map (ceval s) path) [] 0 ltac:(cbn [app map]; now rewrite map_app, app_nil_r)) as B2.
    rewrite map_length, L1 in B1. rewrite app_length, !map_length, L1, L2 in B2. cbn [length] in B1, B2. rewrite B1, B2 in M2. cbn [app map nth] in M2. specialize (M2 Hb).
    destruct r as [|c [|? ?]]; try discriminate M1. exists q, c, b. rewrite concat_app, Z. cbn [concat app]. split; [reflexivity|]. cbn [map] in M1. split; [congruence|].
    split; [exact Hb|]. split; [rewrite <- (map_length (@nbool p)), <- Hb, map_length; exact L2|exact M2]. }
  split.
  - intros St. destruct (statement_sound sqrt PP J _ _ _ _ H HI St) as [s [x [y [Rs [E1 [Lx [Ly [N [LM M]]]]]]]]].
    destruct x as [|x [|leaf [|? ?]]]; try discriminate E1. cbn [map] in E1. assert (Ex : ceval s x = root) by congruence. assert (El : ceval s leaf = lv) by congruence.
    cbn [proof_ty tsize tsizes] in Ly. change ([x; leaf] ++ y) with ([x] ++ leaf :: y) in M.
    destruct (list_split y n n) as [sib [path [-> [L1 L2]]]]; [lia|]. rewrite Ln in LM.
    destruct (list_split Rs (n + 1) 1) as [Rs0 [Rs1 [-> [G1 G2]]]]; [lia|]. destruct Rs1 as [|r [|? ?]]; try discriminate G2.
    destruct (Core s x leaf sib path Rs0 L1 L2) as [q [c [b [Z [Ec [Hb [Lb Hq]]]]]]].
    { split; [rewrite firstn_length, Ln; lia|]. intros j o r' Ej Er.
      assert (Hj : (j < n + 1)%nat) by (rewrite <- G1; apply nth_error_Some; congruence).
      specialize (M j o r'). rewrite nth_error_app1 in M by lia. rewrite firstn_app in M. replace (j - length Rs0)%nat with 0%nat in M by lia. cbn [firstn] in M. rewrite app_nil_r in M. apply M; [|exact Er].
      rewrite <- Ej. symmetry. now apply nth_firstn. }
    specialize (M (n + 1)%nat _ r En1). rewrite nth_error_app2 in M by lia. replace (n + 1 - length Rs0)%nat with 0%nat in M by lia. specialize (M eq_refl). cbv zeta in M.
    rewrite firstn_app in M. replace (n + 1 - length Rs0)%nat with 0%nat in M by lia. cbn [firstn] in M. rewrite app_nil_r in M. rewrite (firstn_all2 Rs0) in M by lia. rewrite Z in M.
    cbn [means] in M. destruct M as [_ M].
    assert (Ev : nth (2 + n + n) (map (ceval s) (([x] ++ leaf :: sib ++ path) ++ [c])) 0 = ceval s c).
    { rewrite map_app, app_nth2; rewrite map_length; cbn [app length]; rewrite app_length, L1, L2; [|lia]. replace (2 + n + n - S (S (n + n)))%nat with 0%nat by lia. reflexivity. }
    rewrite Ev in M. cbn [app map nth] in M.
    exists (map (ceval s) sib), b. rewrite map_length. split; [exact L1|]. split; [exact Lb|]. rewrite <- El, Hq. f_equal. congruence.
  - intros [sib [path [L1 [L2 E]]]]. rename lv into leaf.
    assert (Vs : vleaves (proof_ty n) (sib, (path, tt)) = sib ++ map nbool path).
    { cbn [proof_ty vleaves vleavess fst snd]. rewrite app_nil_r.
      assert (A1 : flat_map (fun x : Num p => [x]) sib = sib) by (clear; induction sib as [|z q IH]; cbn; congruence).
      assert (A2 : flat_map (fun b : bool => [if b then 1 else 0]) path = map (@nbool p) path) by (clear; induction path as [|[] q IH]; cbn; [reflexivity|f_equal; exact IH..]).
      transitivity (flat_map (fun x : Num p => [x]) sib ++ flat_map (fun b : bool => [if b then (1 : Num p) else 0]) path); [reflexivity|]. now rewrite A1, A2. }
    apply (statement_complete sqrt PP J (member_ops n) two_nums (proof_ty n) (root, (leaf, tt)) (sib, (path, tt)) H HI).
    + unfold member_ops. apply Forall_app. split; [|repeat constructor]. apply Forall_map, Forall_forall. intros i _. exact I.
    + unfold member_ops. apply Forall_app. split; [|repeat constructor]. apply Forall_map, Forall_forall. intros i _. exact I.
    + cbn. auto.
    + cbn. repeat split; auto; apply Forall_forall; intros; exact I.
    + rewrite Vs. intros k o a b U tr Rs s Ek N S1 Ea Eb He Hs M.
      destruct a as [|a [|cl [|? ?]]]; try discriminate Ea. cbn [two_nums vleaves vleavess fst snd app map] in Ea. assert (Ea' : ceval s a = root) by congruence.
      assert (Ecl : ceval s cl = leaf) by congruence. pose proof Eb as Eb'. clear Ea Eb.
      change ([a; cl] ++ b) with ([a] ++ cl :: b) in *.
      assert (Lb : length b = (n + n)%nat) by (rewrite <- (map_length (ceval s)), Eb', app_length, map_length; lia).
      destruct (list_split b n n Lb) as [csib [cpath [-> [G1 G2]]]]. rewrite map_app in Eb'.
      assert (Es : map (ceval s) csib = sib /\ map (ceval s) cpath = map nbool path).
      { clear - Eb' L1 G1. assert (L : length (map (ceval s) csib) = length sib) by (rewrite map_length; lia). revert L Eb'. generalize (map (ceval s) csib) as u. revert sib L1 G1. intros sib _ _. induction sib as [|z sib IH]; intros [|w u]; cbn; try discriminate; auto. intros L E. destruct (IH u) as [A B]; [lia|congruence|]. split; [congruence|exact B]. }
      destruct Es as [Es Ep]. assert (Hk : (k < n + 2)%nat) by (rewrite <- Ln; apply nth_error_Some; congruence).
      assert (Vall : map (ceval s) ([a] ++ cl :: csib ++ cpath) = root :: leaf :: sib ++ map nbool path) by (cbn [app map]; rewrite map_app; congruence).
      assert (Lall : length ([a] ++ cl :: csib ++ cpath) = (2 + n + n)%nat) by (cbn [app length]; rewrite app_length; lia).
      destruct (Nat.lt_trichotomy k n) as [Hlt|[->|Hgt]].
      * destruct (member_bits sqrt PP J n s a cl csib cpath k Rs G1 G2 ltac:(lia) M) as [Z _]. rewrite Z, app_nil_r.
        assert (Eo : o = oBAssert (2 + n + k)).
        { unfold member_ops in Ek. rewrite nth_error_app1 in Ek by (rewrite map_length, seq_length; lia). rewrite nth_error_map in Ek.
          rewrite (nth_error_nth' _ 0%nat) in Ek by (rewrite seq_length; lia). rewrite seq_nth in Ek by lia. cbn [option_map] in Ek. congruence. }
        subst o. split; cbn [args ready]; [apply Forall_cons; [rewrite Lall; lia|apply Forall_nil]|]. rewrite Vall. cbn [Nat.add nth]. rewrite app_nth2 by lia. replace (n + k - length sib)%nat with k by lia.
        rewrite (nth_indep _ 0 (nbool false)) by (rewrite map_length; lia). rewrite map_nth. destruct (nth k path false); [right|left]; reflexivity.
      * destruct (member_bits sqrt PP J n s a cl csib cpath n Rs G1 G2 ltac:(lia) M) as [Z _]. rewrite Z, app_nil_r.
        rewrite En in Ek. inversion Ek; subst o. split; cbn [args ready].
        -- rewrite Lall. constructor; [lia|]. apply Forall_app. split; apply Forall_forall; intros i Hi; apply in_seq in Hi; lia.
        -- rewrite !seq_length. split; [reflexivity|]. exists path. unfold bitsof. rewrite Vall.
           pose proof (block (root :: leaf :: sib ++ map nbool path) ([root; leaf] ++ sib) (map nbool path) [] 0 ltac:(cbn [app]; now rewrite app_nil_r)) as B.
           rewrite app_length, map_length, L1, L2 in B. exact B.
      * assert (k = (n + 1)%nat) by lia. subst k. rewrite En1 in Ek. inversion Ek; subst o.
        destruct (Core s a cl csib cpath Rs G1 G2 M) as [q [c [bb [Z [Ec [Hb [_ Hq]]]]]]]. rewrite Z.
        assert (bb = path). { rewrite Ep in Hb. clear - Hb H. pose proof (j_p _ (k_j _ _ _ H)) as Hp. revert bb Hb. induction path as [|y q IH]; intros [|w bb]; cbn; try discriminate; auto. intros E. f_equal; [|apply IH; congruence]. assert (X : nbool (p := p) y = nbool w) by congruence. destruct y, w; auto; exfalso; apply (n1_neq_n0 Hp); cbn in X; congruence. }
        subst bb. rewrite Es, Ecl, E in Hq. assert (q = root) by congruence.
        split; cbn [args ready].
        -- rewrite app_length, Lall. cbn [length]. apply Forall_cons; [lia|]. apply Forall_cons; [lia|apply Forall_nil].
        -- assert (Ev : nth (2 + n + n) (map (ceval s) (([a] ++ cl :: csib ++ cpath) ++ [c])) 0 = ceval s c).
           { rewrite map_app, app_nth2; rewrite map_length, Lall; [|lia]. rewrite Nat.sub_diag. reflexivity. }
           transitivity (ceval s a); [reflexivity|]. transitivity (ceval s c); [congruence|symmetry; exact Ev].
Qed.
Lemma path_index : forall path : list bool, exists i, (i < 2 ^ length path)%nat /\ path = map (Nat.testbit i) (seq 0 (length path)).
Proof.
  induction path as [|b path [i [Hi Ei]]]; [exists 0%nat; cbn; auto|]. exists (2 * i + Nat.b2n b)%nat. cbn [length seq map]. split.
  - rewrite Nat.pow_succ_r'. destruct b; cbn [Nat.b2n]; lia.
  - f_equal; [now rewrite Nat.testbit_0_r|]. rewrite <- seq_shift, map_map. rewrite Ei at 1. apply map_ext. intros j. now rewrite Nat.testbit_succ_r.
Qed.
(** Such an application shows that the leaf is one of the tree's, up to a collision of
    the hash; and every leaf of the tree has a proof. *)
Lemma claim_C84_shown_tree : forall (p l : positive) (sqrt : Num p -> option (Num p)) (PP : @PoseidonParams p) (J : JubJub p l) n leaves root, params_ok sqrt PP J ->
  poseidon_merkle_tree_root PP leaves = Ok root -> (length leaves <= 2 ^ n < 2 * length leaves)%nat ->
  (forall leaf, statement (member_ops n) sqrt PP J two_nums (proof_ty n) [root; leaf] -> (exists i, (i < 2 ^ n)%nat /\ leaf = nth i leaves 0) \/ collision PP) /\
  (forall i, (i < 2 ^ n)%nat -> statement (member_ops n) sqrt PP J two_nums (proof_ty n) [root; nth i leaves 0]).
Proof.
  intros p l sqrt PP J n leaves root H R L. pose proof (j_p _ (k_j _ _ _ H)) as Hp. pose proof (k_pp _ _ _ H) as HP. pose proof (k_t _ _ _ H) as Ht. split.
  - intros leaf St. apply claim_C84_shown in St; auto. destruct St as [sib [path [L1 [L2 E]]]].
    destruct (path_index path) as [i [Hi Ei]]. rewrite L2 in Hi, Ei. subst n. rewrite Ei in E.
    destruct (claim_C66_membership p Hp PP leaves sib leaf root i HP ltac:(lia) R L Hi E); eauto.
  - intros i Hi. apply claim_C84_shown; auto. destruct (claim_C26_tree_root_native p Hp PP HP ltac:(lia)) as [h [_ T]].
    destruct (T leaves ltac:(lia)) as [_ [T2 [T3 T4]]]. set (d := bit_len (length leaves - 1)) in *.
    assert (Ed : d = n).
    { pose proof (T3 n ltac:(lia)) as T5. destruct (Nat.eq_dec d n) as [|Nd]; auto. exfalso.
      assert (Hx : (2 ^ (d + 1) <= 2 ^ n)%nat) by (apply Nat.pow_le_mono_r; lia).
      rewrite Nat.pow_add_r in Hx. cbn [Nat.pow] in Hx. lia. }
    rewrite Ed in T4. eexists _, _. split; [|split; [|rewrite <- R; exact (T4 i Hi)]]; now rewrite map_length, seq_length.
Qed.

(* C67 *)
(** The application that shows a signature of the public message by the public key
    accepts every message for the key 0. *)
Lemma claim_C67_zero_key_object : forall (p l : positive) (sqrt : Num p -> option (Num p)) (PP : @PoseidonParams p) (J : JubJub p l) m, params_ok sqrt PP J ->
  statement signed_ops sqrt PP J two_nums two_nums [0; m].
Proof.
  intros p l sqrt PP J m H. apply claim_C81_signed; auto.
  destruct (claim_C67_zero_key p l J PP sqrt 1 (ex (emul (jd J) (nval (1 : Num l)) (jg J))) m (k_j _ _ _ H) (k_sqrt _ _ _ H) (k_fp _ _ _ H) (k_fl _ _ _ H) (k_pp _ _ _ H) (k_t _ _ _ H)) as [b [E X]].
  eexists _, _. rewrite E. f_equal. now apply X.
Qed.
(* C68 *)
(** And it accepts every message for every key that [sign] can be called with. *)
Lemma claim_C68_signed_object : forall (p l : positive) (sqrt : Num p -> option (Num p)) (PP : @PoseidonParams p) (J : JubJub p l) (sk : Num l) m, params_ok sqrt PP J ->
  exists A, e_mul (jd J) (jg J) sk = Ok A /\ statement signed_ops sqrt PP J two_nums two_nums [ex A; m].
Proof.
  intros p l sqrt PP J sk m H.
  destruct (claim_C35_sign_verify p l J PP sqrt sk m) as [s [r [A [E1 [E2 E3]]]]]; try apply H. exists A. split; [exact E2|]. apply claim_C81_signed; eauto.
Qed.

(** ** Cases *)
(** The tree of 22, 9 and 5 under the library's parameters: the open application accepts
    the number 3, the other one accepts 22. *)
Lemma case_C84_open_tree : exists J P root, jubjub_bn sqrt_search = Ok J /\ pp_new 64 true 4 8 54 = Ok (Some P) /\ params_ok sqrt_search P J /\
  let leaves := map num [22; 9; 5]%Z in poseidon_merkle_tree_root P leaves = Ok root /\
  ~ In (num 3) (0 :: leaves) /\ statement (open_ops 2) sqrt_search P J two_nums (proof_ty 2) [root; num 3] /\
  statement (member_ops 2) sqrt_search P J two_nums (proof_ty 2) [root; num 22].
Proof.
  destruct (claim_C80_library sqrt_search (sqrt_search_ok _)) as [J [P [EJ [EP H]]]].
  destruct (claim_C26_tree_root_native _ (j_p _ (k_j _ _ _ H)) P (k_pp _ _ _ H) ltac:(pose proof (k_t _ _ _ H); lia)) as [h [_ T]].
  destruct (T (map num [22; 9; 5]%Z) ltac:(cbn; lia)) as [R _]. eexists J, P, _. split; [exact EJ|]. split; [exact EP|]. split; [exact H|]. split; [exact R|]. split; [|split].
  - intros X. apply (in_map nval) in X. vm_compute in X. intuition discriminate.
  - eapply (claim_C84_open_tree _ _ _ _ _ 2 _ _ (num 3) 0 H R); [lia|cbn; lia|cbn; lia|]. apply neqb_neq. vm_compute. reflexivity.
  - exact (proj2 (claim_C84_shown_tree _ _ _ _ _ 2 _ _ H R ltac:(cbn; lia)) 0%nat ltac:(cbn; lia)).
Qed.
(** The path signal of 3 next to 22 and 9. *)
Lemma case_C84_open : exists J P root (sv pv : list (Num bn_r)), params_ok (l := bn_l) sqrt_search P J /\ length sv = 2%nat /\ length pv = 2%nat /\ line_root P (num 3) (combine pv sv) = Ok root.
Proof.
  destruct case_C84_open_tree as [J [P [root [_ [_ [H [_ [_ [St _]]]]]]]]]. apply claim_C84_open in St; auto. destruct St as [sv [pv X]]. exists J, P, root, sv, pv. auto.
Qed.
Lemma case_C84_shown : exists J P root (sib : list (Num bn_r)) path, params_ok (l := bn_l) sqrt_search P J /\ length sib = 2%nat /\ length path = 2%nat /\ poseidon_merkle_proof_root P (num 22) sib path = Ok root.
Proof.
  destruct case_C84_open_tree as [J [P [root [_ [_ [H [_ [_ [_ St]]]]]]]]]. apply claim_C84_shown in St; auto. destruct St as [sv [pv X]]. exists J, P, root, sv, pv. auto.
Qed.
Lemma case_C84_shown_tree : exists J P root, params_ok (p := bn_r) (l := bn_l) sqrt_search P J /\ let leaves := map num [22; 9; 5]%Z in
  poseidon_merkle_tree_root P leaves = Ok root /\ (length leaves <= 2 ^ 2 < 2 * length leaves)%nat.
Proof.
  destruct case_C84_open_tree as [J [P [root [_ [_ [H [R _]]]]]]]. exists J, P, root. split; [exact H|]. split; [exact R|cbn; lia].
Qed.
Lemma case_C67_zero_key_object : exists J P, jubjub_bn sqrt_search = Ok J /\ pp_new 64 true 4 8 54 = Ok (Some P) /\ params_ok sqrt_search P J.
Proof. exact (claim_C80_library sqrt_search (sqrt_search_ok _)). Qed.
Lemma case_C68_signed_object : exists J P, jubjub_bn sqrt_search = Ok J /\ pp_new 64 true 4 8 54 = Ok (Some P) /\ params_ok sqrt_search P J.
Proof. exact (claim_C80_library sqrt_search (sqrt_search_ok _)). Qed.
