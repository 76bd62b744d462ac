(** C85: the command line with its default file names. *)

From Verif Require Export CmdLine CmdClaims.
Open Scope num_scope.

(** ** The files of a command *)
Definition reads (b : binding) (c : command) : list path :=
  match c with
  | CProve a o _ _ => [opt_params a; opt_object o]
  | CVerify v f i => [opt_vk b v; opt_proof b f; opt_inputs b i]
  | CSetup _ _ => []
  | CGenerateVerifier v _ => [opt_vk b v]
  | CGenerateTestData _ => []
  end.
Definition writes (b : binding) (c : command) : list path :=
  match c with
  | CProve _ _ f i => [opt_proof b f; opt_inputs b i]
  | CVerify _ _ _ => []
  | CSetup a v => [opt_params a; opt_vk b v]
  | CGenerateVerifier _ s => [opt_solidity s]
  | CGenerateTestData o => [opt_object o]
  end.

Lemma rbind_ok {A B} (m : res A) (k : A -> res B) y : rbind m k = Ok y -> exists x, m = Ok x /\ k x = Ok y.
Proof. destruct m; [|discriminate]. eauto. Qed.

(** The names without any option *)
Lemma claim_C85_names : forall b,
  let js (s : string) := codes (s ++ match b with Ethereum => ".json" | _ => ".txt" end) in
  reads b (CProve None None None None) = [codes "params.bin"; codes "object.json"] /\
  writes b (CProve None None None None) = [js "proof"%string; js "inputs"%string] /\
  reads b (CVerify None None None) = [js "verification_key"%string; js "proof"%string; js "inputs"%string] /\
  writes b (CSetup None None) = [codes "params.bin"; js "verification_key"%string] /\
  reads b (CGenerateVerifier None None) = [js "verification_key"%string] /\
  writes b (CGenerateVerifier None None) = [codes "verifier.sol"] /\
  writes b (CGenerateTestData None) = [codes "object.json"] /\
  NoDup [codes "params.bin"; codes "object.json"; js "proof"%string; js "inputs"%string; js "verification_key"%string; codes "verifier.sol"].
Proof.
  intros b js. subst js. destruct b; cbn [append]; repeat (split; [reflexivity|]);
    repeat constructor; cbn [In]; intros H; repeat (destruct H as [H|H]; [discriminate|]); exact H.
Qed.
Lemma case_C85_names : writes Ethereum (CProve None None None (Some [105%Z])) = [[112; 114; 111; 111; 102; 46; 106; 115; 111; 110]; [105]]%Z.
Proof. reflexivity. Qed.

(** A run changes no file but those it writes, and whether it succeeds, what it prints
    and what it writes depend on nothing but the files it reads. Only verify prints. *)
Lemma claim_C85_frame : forall (E : Engine) p (B : Bellman E p) (Fm : Format (eG1 E) (eG2 E) p) A tp ts
    (main : sig p tp -> sig p ts -> prog p A) obj_print obj_parse td SJ chk n b c r,
  let run := cli_main B Fm tp ts main obj_print obj_parse td SJ chk n b c r in
  (forall d d' o, run d = Ok (d', o) -> (forall f, ~ In f (writes b c) -> d' f = d f) /\
     (o <> None <-> exists v f i, c = CVerify v f i)) /\
  (forall d1 d2, (forall f, In f (reads b c) -> d1 f = d2 f) ->
     match run d1, run d2 with
     | Ok (e1, o1), Ok (e2, o2) => o1 = o2 /\ forall f, In f (writes b c) -> e1 f = e2 f
     | Panic, Panic => True
     | _, _ => False
     end).
Proof.
  intros E p B Fm A tp ts main obj_print obj_parse td SJ chk n b c r run. subst run. split.
  - intros d d' o H. destruct c as [a q f i|v f i|a v|v s|q]; cbn [cli_main writes] in *.
    + apply rbind_ok in H as [x [Hx H]]. unfold cli_prove in Hx.
      repeat (apply rbind_ok in Hx as [? [_ Hx]]). injection Hx as <-. injection H as <- <-. split.
      * intros g Hg. rewrite !fs_other; auto; intros X; subst g; apply Hg; cbn; auto.
      * split; [intros X; now elim X|intros [? [? [? ?]]]; discriminate].
    + apply rbind_ok in H as [x [Hx H]]. injection H as <- <-. split; [auto|]. split; [eauto|discriminate].
    + apply rbind_ok in H as [x [Hx H]]. unfold cli_setup in Hx.
      repeat (apply rbind_ok in Hx as [? [_ Hx]]). injection Hx as <-. injection H as <- <-. split.
      * intros g Hg. destruct (params_first b); rewrite !fs_other; auto; intros X; subst g; apply Hg; cbn; auto.
      * split; [intros X; now elim X|intros [? [? [? ?]]]; discriminate].
    + destruct b; try discriminate. apply rbind_ok in H as [x [Hx H]]. unfold cli_generate_verifier in Hx.
      repeat (apply rbind_ok in Hx as [? [_ Hx]]). injection Hx as <-. injection H as <- <-. split.
      * intros g Hg. rewrite fs_other; auto. intros X; subst g; apply Hg; cbn; auto.
      * split; [intros X; now elim X|intros [? [? [? ?]]]; discriminate].
    + injection H as <- <-. unfold cli_generate_test_data. split.
      * intros g Hg. rewrite fs_other; auto. intros X; subst g; apply Hg; cbn; auto.
      * split; [intros X; now elim X|intros [? [? [? ?]]]; discriminate].
  - assert (W : forall f s e1 e2 g, e1 g = e2 g \/ g = f -> fs_write f s e1 g = fs_write f s e2 g).
    { intros f s e1 e2 g H. unfold fs_write. destruct (keyb f g) eqn:X; auto. destruct H as [H|H]; auto. subst g. now rewrite (proj2 (keyb_eq f f) eq_refl) in X. }
    intros d1 d2 H. destruct c as [a q f i|v f i|a v|v s|q]; cbn [cli_main reads writes In] in *.
    + unfold cli_prove, fs_read. rewrite <- !H by auto.
      repeat match goal with |- context [rbind ?m _] => match m with rbind _ _ => fail 1 | _ => destruct m; cbn [rbind]; [|exact I] end end.
      split; [reflexivity|]. intros g [G|[G|[]]]; subst g; repeat (apply W; auto).
    + unfold cli_verify, fs_read. rewrite <- !H by auto.
      repeat match goal with |- context [rbind ?m _] => match m with rbind _ _ => fail 1 | _ => destruct m; cbn [rbind]; [|exact I] end end.
      split; [reflexivity|tauto].
    + unfold cli_setup.
      repeat match goal with |- context [rbind ?m _] => match m with rbind _ _ => fail 1 | _ => destruct m; cbn [rbind]; [|exact I] end end.
      split; [reflexivity|]. intros g [G|[G|[]]]; subst g; destruct (params_first b); repeat (apply W; auto).
    + destruct b; try exact I. unfold cli_generate_verifier, fs_read. rewrite <- !H by auto.
      repeat match goal with |- context [rbind ?m _] => match m with rbind _ _ => fail 1 | _ => destruct m; cbn [rbind]; [|exact I] end end.
      split; [reflexivity|]. intros g [G|[]]; subst g. apply W; auto.
    + split; [reflexivity|]. intros g [G|[]]; subst g. unfold cli_generate_test_data. apply W; auto.
Qed.

(** Several runs *)
Lemma claim_C85_runs : forall (E : Engine) p (B : Bellman E p) (Fm : Format (eG1 E) (eG2 E) p) A tp ts
    (main : sig p tp -> sig p ts -> prog p A) obj_print obj_parse td SJ chk n b cs d d' l,
  cli_session B Fm tp ts main obj_print obj_parse td SJ chk n b cs d = Ok (d', l) ->
  (forall f, (forall c r, In (c, r) cs -> ~ In f (writes b c)) -> d' f = d f) /\
  length l = length (filter (fun cr => match fst cr with CVerify _ _ _ => true | _ => false end) cs).
Proof.
  intros E p B Fm A tp ts main obj_print obj_parse td SJ chk n b cs. induction cs as [|[c r] cs IH]; intros d d' l H; cbn [cli_session] in H.
  - injection H as <- <-. auto.
  - apply rbind_ok in H as [[d1 o] [H1 H]]. apply rbind_ok in H as [[d2 l2] [H2 H]]. cbn [fst snd] in *. injection H as <- <-.
    destruct (proj1 (claim_C85_frame E p B Fm A tp ts main obj_print obj_parse td SJ chk n b c r) _ _ _ H1) as [F1 F2].
    destruct (IH _ _ _ H2) as [I1 I2]. split.
    + intros f Hf. rewrite (I1 f), (F1 f); auto. * apply (Hf c r). now left. * intros c' r' X. apply (Hf c' r'). now right.
    + cbn [filter fst]. destruct c; cbn [fst length]; destruct o; cbn [length]; rewrite ?I2; auto;
        try (assert (X : Some b0 <> None) by discriminate; apply F2 in X as [? [? [? ?]]]; discriminate).
      exfalso. apply (proj2 F2); eauto.
Qed.

(** setup, generate-test-data, prove and verify with the same names each time (given or
    default) print true, if no two of the names are the same. *)
Lemma claim_C85_session : forall (E : Engine) p (B : Bellman E p) (Fm : Format (eG1 E) (eG2 E) p) A tp ts
    (main : sig p tp -> sig p ts -> prog p A) obj_print obj_parse ok_vk ok_pf ok_in SJ chk n b
    a k q f i r r0 r' r1 d v w K P u u' params pf,
  bellman_complete B -> (forall x, b_read B (b_write B x) = Some x) -> (forall x, obj_parse (obj_print x) = Some x) ->
  format_ok Fm ok_vk ok_pf ok_in -> (forall x y, noin (main x y)) ->
  NoDup [opt_params a; opt_vk b k; opt_object q; opt_proof b f; opt_inputs b i] ->
  key_system (co_synthesize tp ts main None None) = Ok (K, u) ->
  prove_system (co_synthesize tp ts main (Some v) (Some w)) = Ok (P, u') ->
  same_asm K P -> asm_sat P -> b_generate B K r = Some params -> b_prove B P params r' = Some pf ->
  ok_vk (truncate_verifying_key (b_vk B params)) -> ok_pf pf -> ok_in (vleaves tp v) ->
  exists d', cli_session B Fm tp ts main obj_print obj_parse (v, w) SJ chk n b
    [(CSetup a k, r); (CGenerateTestData q, r0); (CProve a q f i, r'); (CVerify k f i, r1)] d = Ok (d', [true]).
Proof.
  intros E p B Fm A tp ts main obj_print obj_parse ok_vk ok_pf ok_in SJ chk n b a k q f i r r0 r' r1 d v w K P u u' params pf
    HB HR HO HF N ND HK HP HS HA HG HPf OV OP OI.
  apply NoDup_cons_iff in ND as [N1 ND]. apply NoDup_cons_iff in ND as [N2 ND]. apply NoDup_cons_iff in ND as [N3 ND]. apply NoDup_cons_iff in ND as [N4 _]. cbn [In] in *.
  edestruct (claim_C75_end_to_end E p B Fm A tp ts main obj_print obj_parse ok_vk ok_pf ok_in (params_first b) (opt_params a) (opt_vk b k) (opt_object q) (opt_proof b f) (opt_inputs b i)
    r r' d v w K P u u' params pf) as [d1 [d3 [S1 [S2 S3]]]]; try eassumption; try (intros X; rewrite ?X in *; tauto).
  exists d3. cbn [cli_session cli_main]. rewrite S1. cbn [rbind fst snd]. rewrite S2. cbn [rbind fst snd]. rewrite S3. reflexivity.
Qed.

(** In particular without any option. *)
Lemma claim_C85_defaults : forall (E : Engine) p (B : Bellman E p) (Fm : Format (eG1 E) (eG2 E) p) A tp ts
    (main : sig p tp -> sig p ts -> prog p A) obj_print obj_parse ok_vk ok_pf ok_in SJ chk n b
    r r0 r' r1 d v w K P u u' params pf,
  bellman_complete B -> (forall x, b_read B (b_write B x) = Some x) -> (forall x, obj_parse (obj_print x) = Some x) ->
  format_ok Fm ok_vk ok_pf ok_in -> (forall x y, noin (main x y)) ->
  key_system (co_synthesize tp ts main None None) = Ok (K, u) ->
  prove_system (co_synthesize tp ts main (Some v) (Some w)) = Ok (P, u') ->
  same_asm K P -> asm_sat P -> b_generate B K r = Some params -> b_prove B P params r' = Some pf ->
  ok_vk (truncate_verifying_key (b_vk B params)) -> ok_pf pf -> ok_in (vleaves tp v) ->
  exists d', cli_session B Fm tp ts main obj_print obj_parse (v, w) SJ chk n b
    [(CSetup None None, r); (CGenerateTestData None, r0); (CProve None None None None, r'); (CVerify None None None, r1)] d = Ok (d', [true]).
Proof.
  intros. eapply claim_C85_session; try eassumption.
  destruct b; repeat constructor; cbn [In]; intros X; repeat (destruct X as [X|X]; [discriminate|]); exact X.
Qed.

(** One name for two outputs: the second write wins. setup leaves the key in the
    binding for ethereum and the parameters in the others; prove leaves the inputs. *)
Lemma claim_C85_same_file : forall (E : Engine) p (B : Bellman E p) (Fm : Format (eG1 E) (eG2 E) p) A tp ts
    (main : sig p tp -> sig p ts -> prog p A) obj_print obj_parse td SJ chk n b r d d' o (x : path),
  let run c := cli_main B Fm tp ts main obj_print obj_parse td SJ chk n b c r d = Ok (d', o) in
  (run (CSetup (Some x) (Some x)) -> exists params vk, generate_keys B tp ts main r = Ok params /\
     f_vk Fm (truncate_verifying_key (b_vk B params)) = Ok vk /\
     d' x = Some (match b with Ethereum => vk | _ => b_write B params end)) /\
  (forall a q, run (CProve a q (Some x) (Some x)) -> exists ob v w ins, d (opt_object q) = Some ob /\ obj_parse ob = Some (v, w) /\
     f_inputs Fm (vleaves tp v) = Ok ins /\ d' x = Some ins).
Proof.
  intros E p B Fm A tp ts main obj_print obj_parse td SJ chk n b r d d' o x run. subst run. cbv beta. split.
  - cbn [cli_main opt_params opt_vk or_default]. intros H. apply rbind_ok in H as [y [Hx H]]. injection H as <- <-. unfold cli_setup in Hx.
    apply rbind_ok in Hx as [params [H1 Hx]]. apply rbind_ok in Hx as [vk [H2 Hx]]. injection Hx as <-.
    exists params, vk. split; [auto|]. split; [auto|]. destruct b; cbn [params_first]; apply fs_same.
  - intros a q. cbn [cli_main opt_proof opt_inputs or_default]. intros H. apply rbind_ok in H as [y [Hx H]]. injection H as <- <-. unfold cli_prove in Hx.
    apply rbind_ok in Hx as [pb [_ Hx]]. apply rbind_ok in Hx as [params [_ Hx]]. apply rbind_ok in Hx as [ob [H1 Hx]].
    apply rbind_ok in Hx as [[v w] [H2 Hx]]. apply rbind_ok in Hx as [pf [_ Hx]]. apply rbind_ok in Hx as [oi [H3 Hx]].
    apply rbind_ok in Hx as [ins [H4 Hx]]. apply rbind_ok in Hx as [s [_ Hx]]. apply rbind_ok in Hx as [t [H5 Hx]]. injection Hx as <-.
    unfold fs_read in H1. destruct (d (opt_object q)) as [ob'|]; [|discriminate]. cbn [unwrap] in H1. injection H1 as ->.
    destruct (obj_parse ob) as [vw|] eqn:EP; [|discriminate]. cbn [unwrap] in H2. injection H2 as ->. cbn [fst] in H3.
    exists ob, v, w, t. split; [auto|]. split; [auto|]. split; [|apply fs_same].
    assert (HV : vsized tp v).
    { unfold co_get_inputs in H3. destruct (t_run (s_alloc tp (Some v)) testcs_new) as [y|] eqn:ET; [|discriminate]. eapply (proj1 t_run_sized). exact ET. }
    rewrite (proj1 (claim_C72_get_inputs p tp v) HV) in H3. injection H3 as <-. cbn [unwrap] in H4. now injection H4 as <-.
Qed.

(** generate-verifier: in the binding for ethereum it writes the contract for the key in
    the file of keys (as far as the one call of write takes it); the others do not have
    it. *)
Lemma claim_C85_verifier : forall (E : Engine) p (B : Bellman E p) (Fm : Format (eG1 E) (eG2 E) p) A tp ts
    (main : sig p tp -> sig p ts -> prog p A) obj_print obj_parse td SJ chk n r (d : files) k x,
  let run b := cli_main B Fm tp ts main obj_print obj_parse td SJ chk n b (CGenerateVerifier k x) r d in
  (forall vk s sol, json_ok SJ -> f_vk (ethereum_format SJ) vk = Ok s -> d (opt_vk Ethereum k) = Some s -> generate_sol_data chk (vk_data vk) = Ok sol ->
     exists d', run Ethereum = Ok (d', None) /\ d' (opt_solidity x) = Some (firstn n sol) /\ forall f, f <> opt_solidity x -> d' f = d f) /\
  (d (opt_vk Ethereum k) = None -> run Ethereum = Panic) /\
  (forall b, b <> Ethereum -> run b = Panic).
Proof.
  intros E p B Fm A tp ts main obj_print obj_parse td SJ chk n r d k x run. subst run. cbv beta. cbn [cli_main]. split; [|split].
  - intros vk s sol H1 H2 H3 H4. destruct (claim_C75_generate_verifier SJ chk n _ (opt_solidity x) d vk s sol H1 H2 H3 H4) as [d' [G1 [G2 [_ G3]]]].
    exists d'. rewrite G1. auto.
  - intros H. unfold cli_generate_verifier, fs_read. now rewrite H.
  - intros b H. destruct b; congruence.
Qed.

(** verify prints true exactly if the three named files are there, can be decoded and
    the pairing equation accepts. It leaves the directory as it is. *)
Lemma claim_C85_verify : forall (E : Engine) p (B : Bellman E p) (Fm : Format (eG1 E) (eG2 E) p) A tp ts
    (main : sig p tp -> sig p ts -> prog p A) obj_print obj_parse td SJ chk n b r (d : files) k f i,
  let run := cli_main B Fm tp ts main obj_print obj_parse td SJ chk n b (CVerify k f i) r d in
  (run = Ok (d, Some true) <-> exists vb pb ib vk pf l,
     d (opt_vk b k) = Some vb /\ d (opt_proof b f) = Some pb /\ d (opt_inputs b i) = Some ib /\
     f_vk_read Fm vb = Ok vk /\ f_proof_read Fm pb = Ok pf /\ f_inputs_read Fm ib = Ok l /\ verify E vk pf l = Ok (Some true)) /\
  (run = Ok (d, Some true) \/ run = Ok (d, Some false) \/ run = Panic).
Proof.
  intros E p B Fm A tp ts main obj_print obj_parse td SJ chk n b r d k f i run. subst run. cbn [cli_main].
  pose proof (proj1 (claim_C75_verify E p Fm (opt_vk b k) (opt_proof b f) (opt_inputs b i) d)) as H. rewrite <- H.
  destruct (cli_verify (E := E) Fm _ _ _ d) as [[|]|]; cbn [rbind]; (split; [split; intros X; congruence|]); auto.
Qed.

(** ** Concrete cases: the square root circuit of C75 *)
Definition toy_line (b : binding) (cs : list command) : res (files * list bool) :=
  cli_session (E := toyE) toyB toyF TNum TNum demo_main toy_print toy_parse (num 9, num 3) tinyJ true 5 b (map (fun c => (c, no_rnd)) cs) no_files.
Definition toy_four : list command := [CSetup None None; CGenerateTestData None; CProve None None None None; CVerify None None None].
Definition toy_left (x : res (files * list bool)) : files := match x with Ok y => fst y | Panic => no_files end.
Definition toy_said (x : res (files * list bool)) : option (list bool) := match x with Ok y => Some (snd y) | Panic => None end.
Lemma case_C85_frame : let d := toy_left (toy_line Waves [CSetup None None]) in
  d (codes "params.bin") <> None /\ d (codes "verification_key.txt") <> None /\ d (codes "verification_key.json") = None.
Proof. vm_compute. repeat split; discriminate. Qed.
(** verify twice says it twice; generate-verifier is known to the binding for ethereum
    only, and fails there on a key that is not JSON. *)
Lemma case_C85_runs : toy_said (toy_line Near (toy_four ++ [CVerify None None None])) = Some [true; true] /\
  toy_said (toy_line Waves (toy_four ++ [CGenerateVerifier None None])) = None /\
  toy_said (toy_line Ethereum (toy_four ++ [CGenerateVerifier None None])) = None.
Proof. repeat split; vm_compute; reflexivity. Qed.
Lemma case_C85_session : NoDup [opt_params (Some [1%Z]); opt_vk Near None; opt_object None; opt_proof Near (Some [2%Z]); opt_inputs Near None] /\
  toy_said (toy_line Near [CSetup (Some [1%Z]) None; CGenerateTestData None; CProve (Some [1%Z]) None (Some [2%Z]) None; CVerify None (Some [2%Z]) None]) = Some [true] /\
  toy_said (toy_line Near [CSetup (Some [1%Z]) None; CGenerateTestData None; CProve (Some [1%Z]) None (Some [2%Z]) None; CVerify None None None]) = None.
Proof.
  split; [|split; vm_compute; reflexivity].
  repeat constructor; cbn [In]; intros X; repeat (destruct X as [X|X]; [discriminate|]); exact X.
Qed.
Lemma case_C85_defaults : map (fun b => toy_said (toy_line b toy_four)) [Ethereum; Waves; WavesBn256; Near] = repeat (Some [true]) 4.
Proof. vm_compute. reflexivity. Qed.
Lemma case_C85_same_file : let e := toy_left (toy_line Ethereum [CSetup (Some [1%Z]) (Some [1%Z])]) in
  let w := toy_left (toy_line Waves [CSetup (Some [1%Z]) (Some [1%Z])]) in e [1%Z] <> w [1%Z] /\ e [1%Z] <> None /\ w [1%Z] <> None.
Proof. vm_compute. repeat split; discriminate. Qed.
Lemma case_C85_verifier : exists s, f_vk (ethereum_format tinyJ) (mkVK gen1 gen2 gen2 gen2 [gen1; gen1]) = Ok s /\
  let d := fs_write (opt_vk Ethereum None) s no_files in
  match cli_main (E := toyE) toyB toyF TNum TNum demo_main toy_print toy_parse (num 9, num 3) tinyJ true 5 Ethereum (CGenerateVerifier None None) no_rnd d with
  | Ok (e, None) => option_map (@length Z) (e (codes "verifier.sol")) = Some 5%nat
  | _ => False
  end.
Proof. eexists. split; [vm_compute; reflexivity|]. vm_compute. reflexivity. Qed.
Lemma case_C85_verify : toy_said (toy_line Waves [CVerify None None None]) = None /\
  toy_said (toy_line Waves (toy_four ++ [CGenerateTestData (Some (codes "verification_key.txt")); CVerify None None None])) = None.
Proof. split; vm_compute; reflexivity. Qed.
