(** C75 for circuits made of library calls: the key generator and the prover see the
    same system, so nothing is assumed of the key generator. *)

From Verif Require Export CmdClaims.
Open Scope num_scope.

Section Library.
Context {p l : positive} (sqrt : Num p -> option (Num p)) (PP : @PoseidonParams p) (J : JubJub p l).
(** The circuit [ops] on the numbers of the public and of the secret value. *)
Definition lib_main (ops : list (@op p)) (tp ts : sty) (x : sig p tp) (y : sig p ts) : prog p (list (CNum p)) :=
  circuit sqrt PP J false (fun _ => None) ops (s_linearize tp x ++ s_linearize ts y).
Definition flat_main (ops : list (@op p)) (lv lw : list (option (Num p))) : prog p unit :=
  x <-- pmapM calloc lv ;; y <-- pmapM calloc lw ;;
  circuit sqrt PP J false (fun _ => None) ops (x ++ y) ;;; piter cinputize x.

Lemma flat_some ops tp ts v w : vsized tp v -> vsized ts w ->
  peq eq (co_synthesize tp ts (lib_main ops tp ts) (Some v) (Some w)) (flat_main ops (map Some (vleaves tp v)) (map Some (vleaves ts w))).
Proof.
  intros V W. unfold co_synthesize, flat_main. eapply peq_bind; [exact (proj1 alloc_some_both tp v V)|]. intros x lx [_ <-].
  eapply peq_bind; [exact (proj1 alloc_some_both ts w W)|]. intros y ly [_ <-].
  unfold lib_main. rewrite !linearize_leaves. eapply peq_bind; [apply peq_refl|]. intros a b _. exact (proj1 inputize_both tp x).
Qed.
Lemma flat_none ops tp ts :
  peq eq (co_synthesize tp ts (lib_main ops tp ts) None None) (flat_main ops (repeat None (tsize tp)) (repeat None (tsize ts))).
Proof.
  unfold co_synthesize, flat_main. eapply peq_bind; [exact (proj1 alloc_none_both tp)|]. intros x lx [_ <-].
  eapply peq_bind; [exact (proj1 alloc_none_both ts)|]. intros y ly [_ <-].
  unfold lib_main. rewrite !linearize_leaves. eapply peq_bind; [apply peq_refl|]. intros a b _. exact (proj1 inputize_both tp x).
Qed.
Lemma shp_inputs (x x' : list (CNum p)) : Forall2 (sm true) x x' -> shp true eq (piter cinputize x) (piter cinputize x').
Proof.
  unfold piter. intros H. cut (forall u, shp true eq (pfold (fun _ a => cinputize a) x u) (pfold (fun _ a => cinputize a) x' u)); [auto|].
  induction H as [|a a' x x' Ha Hx IH]; intros u; cbn [pfold]; [now apply shp_ret|].
  eapply shp_bind; [apply shp_inputize; exact Ha|]. intros u1 u2 <-. apply IH.
Qed.
Lemma shp_flat ops lv lw : (2 <= num_bits p)%nat -> Forall limits ops ->
  shp true eq (flat_main ops lv lw) (flat_main ops (repeat None (length lv)) (repeat None (length lw))).
Proof.
  intros Hn HL. unfold flat_main.
  assert (N : forall k : list (option (Num p)), Forall2 (fun v v' => ole v v') k (repeat None (length k))).
  { induction k; cbn; constructor; auto. apply ole_none. }
  eapply shp_bind; [eapply (shp_pmapM true); [apply N|]; intros a a' Ha; apply shp_calloc; auto|]. intros x x' Hx.
  eapply shp_bind; [eapply (shp_pmapM true); [apply N|]; intros a a' Ha; apply shp_calloc; auto|]. intros y y' Hy.
  eapply shp_bind.
  - apply (shp_circuit sqrt PP J true false (fun _ => None) (fun _ => None)); auto; [intros _ k; apply ole_none|]. now apply Forall2_app.
  - intros r r' _. now apply shp_inputs.
Qed.
Lemma lib_keys ops tp ts v w P u : (2 <= num_bits p)%nat -> Forall limits ops ->
  prove_system (co_synthesize tp ts (lib_main ops tp ts) (Some v) (Some w)) = Ok (P, u) ->
  exists K u', key_system (co_synthesize tp ts (lib_main ops tp ts) None None) = Ok (K, u') /\ same_asm K P.
Proof.
  intros Hn HL HP. unfold prove_system in HP.
  destruct (gp_run_ok _ _ _ _ HP) as [s1 [x [E1 HP']]]. destruct (gp_run_ok _ _ _ _ HP') as [s2 [y [E2 _]]].
  pose proof (proj1 gp_run_sized _ _ _ _ E1) as V. pose proof (proj1 gp_run_sized _ _ _ _ E2) as W. clear x y s1 s2 E1 E2 HP'.
  pose proof (peq_gp_run _ _ _ (flat_some ops tp ts v w V W) proveasm_new) as X. rewrite HP in X.
  destruct (gp_run (flat_main ops _ _) proveasm_new) as [[P' u1]|] eqn:EP; [|contradiction]. destruct X as [<- _].
  pose proof (shp_flat ops (map Some (vleaves tp v)) (map Some (vleaves ts w)) Hn HL) as HS. rewrite !map_length in HS.
  rewrite (proj1 vleaves_len_both tp v V), (proj1 vleaves_len_both ts w W) in HS.
  destruct (shp_asm _ _ _ _ HS keyasm_new proveasm_new P u1) as [T1 T2]; [repeat split|exact EP|]. specialize (T1 eq_refl).
  pose proof (peq_gk_run _ _ _ (flat_none ops tp ts) keyasm_new) as Y. unfold key_system.
  destruct (gk_run (flat_main ops _ _) keyasm_new) as [[K u2]|]; [|congruence].
  destruct (gk_run (co_synthesize _ _ _ _ _) keyasm_new) as [[K' u3]|]; [|contradiction]. destruct Y as [-> _].
  exists K, u3. split; [reflexivity|]. exact (proj1 (T2 _ _ eq_refl)).
Qed.
Lemma noin_lib ops tp ts : (forall a, ~ In (oInputize a) ops) -> forall x y, noin (lib_main ops tp ts x y).
Proof.
  intros H x y. unfold lib_main. generalize (s_linearize tp x ++ s_linearize ts y). revert H.
  induction ops as [|o ops IH]; intros H R; cbn [circuit]; [exact I|].
  apply noin_bind; [apply noin_step; intros a ->; apply (H a); now left|]. intros r. apply IH. intros a Ha. apply (H a). now right.
Qed.
End Library.

(* C75 *)
(** The session of C75_end_to_end for every list of library calls: if the prover's
    circuit runs and its assignment satisfies the constraints, the commands end in true. *)
Lemma claim_C75_library : forall (E : Engine) p l sqrt PP (J : JubJub p l) (B : Bellman E p) (Fm : Format (eG1 E) (eG2 E) p) ops tp ts
    obj_print obj_parse ok_vk ok_pf ok_in params_first o_params o_vk o_object o_proof o_inputs r r' d v w P u,
  let main := lib_main sqrt PP J ops tp ts in
  bellman_complete B -> (forall x, b_read B (b_write B x) = Some x) -> (forall x, obj_parse (obj_print x) = Some x) ->
  format_ok Fm ok_vk ok_pf ok_in -> (2 <= num_bits p)%nat -> Forall limits ops -> (forall a, ~ In (oInputize a) ops) ->
  o_params <> o_vk -> o_params <> o_object -> o_vk <> o_object -> o_vk <> o_proof -> o_vk <> o_inputs -> o_proof <> o_inputs ->
  prove_system (co_synthesize tp ts main (Some v) (Some w)) = Ok (P, u) -> asm_sat P ->
  exists K u', key_system (co_synthesize tp ts main None None) = Ok (K, u') /\
  forall params pf, b_generate B K r = Some params -> b_prove B P params r' = Some pf ->
  ok_vk (truncate_verifying_key (b_vk B params)) -> ok_pf pf -> ok_in (vleaves tp v) ->
  exists d1 d3, cli_setup B Fm tp ts main params_first o_params o_vk r d = Ok d1 /\
    cli_prove B Fm tp ts main obj_parse o_params o_object o_proof o_inputs r' (cli_generate_test_data tp ts obj_print (v, w) o_object d1) = Ok d3 /\
    cli_verify (E := E) Fm o_vk o_proof o_inputs d3 = Ok true.
Proof.
  intros E p l sqrt PP J B Fm ops tp ts obj_print obj_parse ok_vk ok_pf ok_in params_first o_params o_vk o_object o_proof o_inputs r r' d v w P u main
    HB HR HO HF Hn HL HI D1 D2 D3 D4 D5 D6 HP HA.
  destruct (lib_keys sqrt PP J ops tp ts v w P u Hn HL HP) as [K [u' [HK HS]]]. exists K, u'. split; [exact HK|].
  intros params pf HG HPf OV OP OI.
  exact (claim_C75_end_to_end E p B Fm _ tp ts main obj_print obj_parse ok_vk ok_pf ok_in params_first o_params o_vk o_object o_proof o_inputs
    r r' d v w K P u' u params pf HB HR HO HF (noin_lib sqrt PP J ops tp ts HI) D1 D2 D3 D4 D5 D6 HK HP HS HA HG HPf OV OP OI).
Qed.
(** Knowing a preimage of the public number under Poseidon; the permutation has three
    rows modulo 251, and 105 is the hash of 3. *)
Definition endPP : PoseidonParams 251 := mkPP [num 3; num 4; num 5] [[num 1; num 2; num 3]; [num 4; num 5; num 7]; [num 2; num 9; num 1]] 3 2 1.
Definition endJ : JubJub 251 11 := mkJ (mkE 0 1) (num 2) (num 3) (num 4) (num 5).
Definition end_ops : list (@op 251) := [oPoseidon [1]; oAssertEq 0 2]%nat.
Definition end_session (x y : Num 251) : res bool :=
  let main := lib_main sqrt_search endPP endJ end_ops TNum TNum in
  d1 <-? cli_setup (E := toyE) toyB toyF TNum TNum main true [1%Z] [2%Z] no_rnd no_files ;
  d3 <-? cli_prove (E := toyE) toyB toyF TNum TNum main toy_parse [1%Z] [3%Z] [4%Z] [5%Z] no_rnd
           (cli_generate_test_data TNum TNum toy_print (x, y) [3%Z] d1) ;
  cli_verify (E := toyE) toyF [2%Z] [4%Z] [5%Z] d3.
Lemma case_C75_library : (2 <= num_bits 251)%nat /\ Forall limits end_ops /\ (forall a, ~ In (oInputize a) end_ops) /\
  (exists P u, prove_system (co_synthesize TNum TNum (lib_main sqrt_search endPP endJ end_ops TNum TNum) (Some (num 105)) (Some (num 3))) = Ok (P, u) /\ asm_sat P) /\
  poseidon endPP [num 3] = Ok (num 105) /\ end_session (num 105) (num 3) = Ok true.
Proof.
  split; [vm_compute; lia|]. split; [repeat constructor|]. split; [intros a [H|[H|[]]]; discriminate|].
  split; [|split; [vm_compute; apply f_equal, num_eq; reflexivity|vm_compute; reflexivity]].
  eexists _, _. split; [vm_compute; reflexivity|]. repeat constructor; apply num_eq; vm_compute; reflexivity.
Qed.
