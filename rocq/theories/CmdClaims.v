(** C75: the commands of the bindings, one after the other. *)

From Verif Require Export CliClaims.
Open Scope num_scope.

(** ** What the theorems assume of the pairing library *)
(** The prover's assignment, and that it satisfies the constraints *)
Definition asg {p} (P : @proveasm p) (i : Index) : Num p :=
  match i with Input n => nth n (p_inputs P) 0 | Aux n => nth n (p_aux P) 0 end.
Definition asm_sat {p} (P : @proveasm p) : Prop :=
  Forall (fun abc => match abc with (a, b, c) => leval (asg P) a * leval (asg P) b = leval (asg P) c end) (p_cons P).
(** Completeness: if key generation and the prover saw the same system and the
    constraints hold, the proof is accepted with the prover's public inputs. *)
Definition bellman_complete {E p} (B : Bellman E p) : Prop := forall K P r r' params pf,
  same_asm K P -> asm_sat P -> b_generate B K r = Some params -> b_prove B P params r' = Some pf ->
  verify E (truncate_verifying_key (b_vk B params)) pf (skipn 1 (p_inputs P)) = Ok (Some true).
(** A format gives back what it wrote. *)
Definition format_ok {G1 G2 p} (Fm : Format G1 G2 p) (ok_vk : VK G1 G2 -> Prop) (ok_pf : Proof_ G1 G2 -> Prop) (ok_in : list (Num p) -> Prop) : Prop :=
  (forall vk, ok_vk vk -> exists s, f_vk Fm vk = Ok s /\ f_vk_read Fm s = Ok vk) /\
  (forall pf, ok_pf pf -> exists s, f_proof Fm pf = Ok s /\ f_proof_read Fm s = Ok pf) /\
  (forall l, ok_in l -> exists s, f_inputs Fm l = Ok s /\ f_inputs_read Fm s = Ok l).

Lemma fs_same f bs d : fs_write f bs d f = Some bs.
Proof. unfold fs_write. now rewrite (proj2 (keyb_eq f f) eq_refl). Qed.
Lemma fs_other f g bs d : f <> g -> fs_write f bs d g = d g.
Proof. intros H. unfold fs_write. destruct (keyb f g) eqn:X; auto. apply keyb_eq in X. contradiction. Qed.

(** setup, generate_test_data, prove and verify in this order print true. *)
Lemma claim_C75_end_to_end : forall (E : Engine) p (B : Bellman E p) (Fm : Format (eG1 E) (eG2 E) p) A tp ts
    (main : sig p tp -> sig p ts -> prog p A) obj_print obj_parse ok_vk ok_pf ok_in
    params_first o_params o_vk o_object o_proof o_inputs r r' d v w K P u u' params pf,
  bellman_complete B -> (forall x, b_read B (b_write B x) = Some x) -> (forall x, obj_parse (obj_print x) = Some x) ->
  format_ok Fm ok_vk ok_pf ok_in -> (forall x y, noin (main x y)) ->
  o_params <> o_vk -> o_params <> o_object -> o_vk <> o_object -> o_vk <> o_proof -> o_vk <> o_inputs -> o_proof <> o_inputs ->
  key_system (co_synthesize tp ts main None None) = Ok (K, u) ->
  prove_system (co_synthesize tp ts main (Some v) (Some w)) = Ok (P, u') ->
  same_asm K P -> asm_sat P -> b_generate B K r = Some params -> b_prove B P params r' = Some pf ->
  ok_vk (truncate_verifying_key (b_vk B params)) -> ok_pf pf -> ok_in (vleaves tp v) ->
  exists d1 d3, cli_setup B Fm tp ts main params_first o_params o_vk r d = Ok d1 /\
    cli_prove B Fm tp ts main obj_parse o_params o_object o_proof o_inputs r' (cli_generate_test_data tp ts obj_print (v, w) o_object d1) = Ok d3 /\
    cli_verify (E := E) Fm o_vk o_proof o_inputs d3 = Ok true.
Proof.
  intros E p B Fm A tp ts main obj_print obj_parse ok_vk ok_pf ok_in params_first o_params o_vk o_object o_proof o_inputs r r' d v w K P u u' params pf
    HB HR HO [F1 [F2 F3]] N D1 D2 D3 D4 D5 D6 HK HP HS HA HG HPf OV OP OI.
  destruct (F1 _ OV) as [sv [V1 V2]], (F2 _ OP) as [sp [P1 P2]], (F3 _ OI) as [si [I1 I2]].
  pose proof (HB _ _ _ _ _ _ HS HA HG HPf) as HV.
  destruct (proj1 (claim_C72_prover p A tp ts main v w N) P u' HP) as [l [L1 [-> L2]]].
  unfold cli_setup, generate_keys. rewrite HK. cbn [rbind fst]. rewrite HG. cbn [unwrap rbind]. rewrite V1. cbn [rbind].
  set (d1 := if params_first then fs_write o_vk sv (fs_write o_params (b_write B params) d) else fs_write o_params (b_write B params) (fs_write o_vk sv d)).
  exists d1, (fs_write o_inputs si (fs_write o_proof sp (fs_write o_object (obj_print (v, w)) d1))). split; [reflexivity|]. unfold cli_generate_test_data.
  assert (X1 : d1 o_params = Some (b_write B params)).
  { unfold d1. destruct params_first; [rewrite fs_other by auto|]; apply fs_same. }
  assert (X2 : d1 o_vk = Some sv). { unfold d1. destruct params_first; [|rewrite fs_other by auto]; apply fs_same. }
  split.
  - unfold cli_prove, fs_read. rewrite (fs_other o_object o_params), X1 by auto. cbn [unwrap rbind]. rewrite HR. cbn [unwrap rbind].
    rewrite fs_same. cbn [unwrap rbind]. rewrite HO. cbn [unwrap rbind fst snd]. unfold prove. rewrite HP. cbn [rbind fst]. rewrite HPf. cbn [unwrap rbind].
    rewrite L1. cbn [rbind unwrap]. rewrite P1. cbn [rbind]. rewrite I1. reflexivity.
  - unfold cli_verify, fs_read. rewrite (fs_other o_inputs o_vk), (fs_other o_proof o_vk), (fs_other o_object o_vk), X2 by auto. cbn [unwrap rbind].
    rewrite (fs_other o_inputs o_proof), fs_same by auto. cbn [unwrap rbind]. rewrite fs_same. cbn [unwrap rbind].
    rewrite V2. cbn [rbind]. rewrite P2. cbn [rbind]. rewrite I2. cbn [rbind]. rewrite L2 in HV. cbn [skipn] in HV. rewrite HV. reflexivity.
Qed.

(** verify prints true exactly if the three files are there, can be decoded and the
    pairing equation accepts; it prints false for the wrong number of inputs; and it
    panics if a file is missing or cannot be decoded. *)
Lemma claim_C75_verify : forall (E : Engine) p (Fm : Format (eG1 E) (eG2 E) p) o_vk o_proof o_inputs (d : files),
  (cli_verify (E := E) Fm o_vk o_proof o_inputs d = Ok true <-> exists vb pb ib vk pf l,
     d o_vk = Some vb /\ d o_proof = Some pb /\ d o_inputs = Some ib /\
     f_vk_read Fm vb = Ok vk /\ f_proof_read Fm pb = Ok pf /\ f_inputs_read Fm ib = Ok l /\ verify E vk pf l = Ok (Some true)) /\
  (forall vb pb ib vk pf l, d o_vk = Some vb -> d o_proof = Some pb -> d o_inputs = Some ib ->
     f_vk_read Fm vb = Ok vk -> f_proof_read Fm pb = Ok pf -> f_inputs_read Fm ib = Ok l ->
     (length l + 1 <> length (vk_ic vk))%nat -> cli_verify (E := E) Fm o_vk o_proof o_inputs d = Ok false) /\
  (d o_vk = None \/ d o_proof = None \/ d o_inputs = None \/ (exists vb, d o_vk = Some vb /\ f_vk_read Fm vb = Panic) \/
   (exists pb, d o_proof = Some pb /\ f_proof_read Fm pb = Panic) \/ (exists ib, d o_inputs = Some ib /\ f_inputs_read Fm ib = Panic) ->
   cli_verify (E := E) Fm o_vk o_proof o_inputs d = Panic).
Proof.
  intros E p Fm o_vk o_proof o_inputs d. unfold cli_verify, fs_read. split; [split|split].
  - destruct (d o_vk) as [vb|]; [|discriminate]. destruct (d o_proof) as [pb|]; [|discriminate]. destruct (d o_inputs) as [ib|]; [|discriminate]. cbn [unwrap rbind].
    destruct (f_vk_read Fm vb) as [vk|] eqn:E1; [|discriminate]. cbn [rbind]. destruct (f_proof_read Fm pb) as [pf|] eqn:E2; [|discriminate]. cbn [rbind].
    destruct (f_inputs_read Fm ib) as [l|] eqn:E3; [|discriminate]. cbn [rbind]. destruct (verify E vk pf l) as [[[|]|]|] eqn:E4; cbn [rbind]; try discriminate.
    intros _. exists vb, pb, ib, vk, pf, l. auto 10.
  - intros [vb [pb [ib [vk [pf [l [-> [-> [-> [E1 [E2 [E3 E4]]]]]]]]]]]]. cbn [unwrap rbind]. rewrite E1. cbn [rbind]. rewrite E2. cbn [rbind]. rewrite E3. cbn [rbind]. now rewrite E4.
  - intros vb pb ib vk pf l -> -> -> E1 E2 E3 L. cbn [unwrap rbind]. rewrite E1. cbn [rbind]. rewrite E2. cbn [rbind]. rewrite E3. cbn [rbind].
    unfold verify. destruct (Nat.eqb_spec (length l + 1) (length (vk_ic vk))); [contradiction|]. reflexivity.
  - intros H. destruct (d o_vk) as [vb|]; [|reflexivity]. destruct (d o_proof) as [pb|]; [|reflexivity]. destruct (d o_inputs) as [ib|]; [|reflexivity]. cbn [unwrap rbind].
    destruct (f_vk_read Fm vb) as [vk|] eqn:E1; [|reflexivity]. cbn [rbind]. destruct (f_proof_read Fm pb) as [pf|] eqn:E2; [|reflexivity]. cbn [rbind].
    destruct (f_inputs_read Fm ib) as [l|] eqn:E3; [|reflexivity].
    exfalso. destruct H as [H|[H|[H|[[x [X Y]]|[[x [X Y]]|[x [X Y]]]]]]]; congruence.
Qed.

(** ** The formats give back what they wrote. *)
Definition codec_bytes {G} (k : PointCodec G) : Prop := forall g, Forall byte (pc_compress k g).
Definition finite_proof {G1 G2} (k1 : PointCodec G1) (k2 : PointCodec G2) (pf : Proof_ G1 G2) : Prop :=
  pc_is_zero k1 (pf_a pf) = false /\ pc_is_zero k2 (pf_b pf) = false /\ pc_is_zero k1 (pf_c pf) = false.
Lemma bproof_app {G1 G2} (k1 : PointCodec G1) (k2 : PointCodec G2) pf tail : codec_ok k1 -> codec_ok k2 -> finite_proof k1 k2 pf ->
  bproof_read k1 k2 (bproof_write k1 k2 pf ++ tail) = Some pf.
Proof.
  intros H1 H2 [Z1 [Z2 Z3]]. unfold bproof_read, bproof_write. rewrite <- !app_assoc, !read_point_app, Z1 by auto.
  rewrite read_point_app, Z2, read_point_app, Z3 by auto. destruct pf; reflexivity.
Qed.
Lemma forall_concat {A} (f : A -> list Z) l : (forall a, Forall byte (f a)) -> Forall byte (concat (map f l)).
Proof. intros H. induction l; cbn; [constructor|]. apply Forall_app. auto. Qed.
Lemma claim_C75_waves : forall G1 G2 (k1 : PointCodec G1) (k2 : PointCodec G2) p,
  codec_ok k1 -> codec_ok k2 -> codec_bytes k1 -> codec_bytes k2 ->
  format_ok (waves_format k1 k2 p) (finite_key k1 k2) (finite_proof k1 k2) (fun _ => True).
Proof.
  intros G1 G2 k1 k2 p H1 H2 B1 B2. unfold waves_format. split; [|split]; cbn [f_vk f_vk_read f_proof f_proof_read f_inputs f_inputs_read].
  - intros vk F. eexists. split; [reflexivity|]. rewrite b64_roundtrip.
    + cbn [unwrap rbind]. assert (T : (length (@nil Z) < pc_size k1)%nat) by (destruct H1; cbn; lia).
      now rewrite (proj1 (proj1 (claim_C55_read_write G1 G2 k1 k2 vk [] H1 H2 T) F)).
    + unfold tvk_write. repeat (apply Forall_app; split); auto. apply forall_concat. exact B1.
  - intros pf F. eexists. split; [reflexivity|]. rewrite b64_roundtrip.
    + cbn [unwrap rbind]. rewrite <- (app_nil_r (bproof_write k1 k2 pf)). now rewrite bproof_app.
    + unfold bproof_write. repeat (apply Forall_app; split); auto.
  - intros l _. rewrite claim_C73_vec_write. cbn [rbind]. eexists. split; [reflexivity|].
    assert (BB : Forall byte (concat (map (fun a : Num p => be_bytes (8 * num_limbs p) (nval a)) l))) by (apply forall_concat; intros; apply be_bytes_byte).
    rewrite b64_roundtrip by exact BB. cbn [unwrap rbind]. now rewrite (proj2 (claim_C73_vec_read p _ l BB) eq_refl).
Qed.
(** A proof file may be followed by anything in waves, and by nothing in near. *)
Lemma claim_C75_waves_tail : forall G1 G2 (k1 : PointCodec G1) (k2 : PointCodec G2) p pf tail,
  codec_ok k1 -> codec_ok k2 -> codec_bytes k1 -> codec_bytes k2 -> finite_proof k1 k2 pf -> Forall byte tail ->
  f_proof_read (waves_format k1 k2 p) (b64_encode (bproof_write k1 k2 pf ++ tail)) = Ok pf.
Proof.
  intros G1 G2 k1 k2 p pf tail H1 H2 B1 B2 F T. cbn [waves_format f_proof_read]. rewrite b64_roundtrip.
  - cbn [unwrap rbind]. now rewrite bproof_app.
  - unfold bproof_write. repeat (apply Forall_app; split); auto.
Qed.

Definition on_g1 (a : Aff (Num bn_q)) : Prop := ainf a = false /\ nmul (ay a) (ay a) = nadd (nmul (nmul (ax a) (ax a)) (ax a)) (num 3).
Definition on_g2 (a : Aff (Fq2 bn_q)) : Prop := ainf a = false /\ q2mul (ay a) (ay a) = q2add (q2mul (q2mul (ax a) (ax a)) (ax a)) bn_b2.
Definition proof_valid (pf : Proof_ (Aff (Num bn_q)) (Aff (Fq2 bn_q))) : Prop := on_g1 (pf_a pf) /\ on_g2 (pf_b pf) /\ on_g1 (pf_c pf).
Definition key_valid (vk : VK (Aff (Num bn_q)) (Aff (Fq2 bn_q))) : Prop :=
  on_g1 (vk_alpha vk) /\ on_g2 (vk_beta vk) /\ on_g2 (vk_gamma vk) /\ on_g2 (vk_delta vk) /\ Forall on_g1 (vk_ic vk).
Lemma key_back vk : key_valid vk -> vk_of_data bn_g1 bn_g2 (vk_data vk) = Ok vk.
Proof.
  intros [K1 [K2 [K3 [K4 K5]]]].
  exact (proj2 (claim_C51_proof_and_key (mkPf (vk_alpha vk) (vk_beta vk) (vk_alpha vk)) vk) K1 K2 K3 K4 K5).
Qed.
Lemma proof_back pf : proof_valid pf -> pf_of_data bn_g1 bn_g2 (pf_data pf) = Ok pf.
Proof.
  intros [Z1 [Z2 Z3]].
  exact (proj1 (claim_C51_proof_and_key pf (mkVK (pf_a pf) (pf_b pf) (pf_b pf) (pf_b pf) [])) Z1 Z2 Z3).
Qed.
Lemma borsh_byte {q} (a : Num q) : Forall byte (borsh_ser a).
Proof. rewrite borsh_ser_bytes. apply le_bytes_byte. Qed.
Lemma g1_byte {q} (d : G1Data q) : Forall byte (g1_ser d).
Proof. destruct d as [x y]. unfold g1_ser. apply Forall_app. split; apply borsh_byte. Qed.
Lemma g2_byte {q} (d : G2Data q) : Forall byte (g2_ser d).
Proof. destruct d as [[a b] [c e]]. unfold g2_ser. repeat (apply Forall_app; split); apply borsh_byte. Qed.
Lemma pd_byte {q} (d : ProofData q) : Forall byte (pd_ser d).
Proof. unfold pd_ser. apply Forall_app. split; [apply g1_byte|]. apply Forall_app. split; [apply g2_byte|apply g1_byte]. Qed.
Lemma vec_byte {A} (ser : A -> list Z) l : (forall a, Forall byte (ser a)) -> Forall byte (vec_ser ser l).
Proof. intros H. unfold vec_ser. apply Forall_app. split; [apply le_bytes_byte|now apply forall_concat]. Qed.
Lemma vd_byte {q} (d : VKData q) : Forall byte (vd_ser d).
Proof. unfold vd_ser. apply Forall_app. split; [apply g1_byte|]. do 3 (apply Forall_app; split; [apply g2_byte|]). apply vec_byte. intros. apply g1_byte. Qed.
Lemma slice_ok {A} ser de ok (v : A) : code ser de ok -> ok v -> try_from_slice de (ser v) = Some v.
Proof. intros [H _] O. unfold try_from_slice. rewrite <- (app_nil_r (ser v)), H by auto. reflexivity. Qed.

Lemma claim_C75_near : format_ok near_format
  (fun vk => key_valid vk /\ (Z.of_nat (length (vk_ic vk)) < 2 ^ 32)%Z) proof_valid (fun l => (Z.of_nat (length l) < 2 ^ 32)%Z).
Proof.
  unfold near_format. split; [|split]; cbn [f_vk f_vk_read f_proof f_proof_read f_inputs f_inputs_read].
  - intros vk [KV L]. eexists. split; [reflexivity|]. rewrite b64_roundtrip by apply vd_byte. cbn [unwrap rbind].
    rewrite (slice_ok _ _ _ _ (code_vd bn_q)). 2:{ unfold vk_data. cbn [vd_ic]. now rewrite map_length. }
    cbn [unwrap rbind]. exact (key_back vk KV).
  - intros pf PV. eexists. split; [reflexivity|]. rewrite b64_roundtrip by apply pd_byte. cbn [unwrap rbind].
    rewrite (slice_ok _ _ _ _ (code_pd bn_q) I). cbn [unwrap rbind].
    exact (proof_back pf PV).
  - intros l L. eexists. split; [reflexivity|]. rewrite b64_roundtrip by (apply vec_byte; intros; apply borsh_byte). cbn [unwrap rbind].
    now rewrite (slice_ok _ _ _ _ (code_vec _ _ (code_num bn_ord)) L).
Qed.
Lemma claim_C75_near_tail : forall (pf : Proof_ (Aff (Num bn_q)) (Aff (Fq2 bn_q))) b tail, byte b -> Forall byte tail ->
  f_proof_read near_format (b64_encode (pd_ser (pf_data pf) ++ b :: tail)) = Panic.
Proof.
  intros pf b tail B T. cbn [near_format f_proof_read]. rewrite b64_roundtrip by (apply Forall_app; split; [apply pd_byte|constructor; auto]).
  cbn [unwrap rbind]. unfold try_from_slice. now rewrite (proj1 (code_pd bn_q)).
Qed.
(** What is printed: strings of digits, small letters and underscores, arrays, objects.
    (JOther stands for several values, which no parser can give back.) *)
Definition pchar (c : Z) : Prop := (48 <= c <= 57 \/ 97 <= c <= 122 \/ c = 95)%Z.
Inductive plain : json -> Prop :=
| pl_str s : Forall pchar s -> plain (JStr s)
| pl_arr l : Forall plain l -> plain (JArr l)
| pl_obj m : Forall (fun kv => Forall pchar (fst kv) /\ plain (snd kv)) m -> plain (JObj m).
Definition json_ok (SJ : SerdeJson) : Prop := forall j, plain j -> sj_parse SJ (sj_print SJ j) = Some j.
Section Plain.
Context {q : positive}.
Hypothesis FB : Nat.eqb (num_bytes q) (8 * num_limbs q) = true.
Hypothesis Q1 : (1 < Zpos q)%Z.
Lemma num_plain (a : Num q) j : num_ser a = Ok j -> plain j.
Proof.
  destruct (claim_C48_roundtrip q a FB Q1) as [s [E1 [_ [D _]]]]. unfold num_ser. rewrite E1. intros [= <-]. constructor.
  eapply Forall_impl; [|exact D]. intros c H. now left.
Qed.
Lemma pair_plain {A} (ser : A -> res json) x y j : (forall x j, ser x = Ok j -> plain j) -> pair_ser ser x y = Ok j -> plain j.
Proof.
  intros H. unfold pair_ser. destruct (ser x) as [a|] eqn:E1; [|discriminate]. cbn [rbind]. destruct (ser y) as [b|] eqn:E2; [|discriminate]. cbn [rbind].
  intros [= <-]. constructor. repeat constructor; eauto.
Qed.
Lemma g1_plain (d : G1Data q) j : g1_json d = Ok j -> plain j.
Proof. apply pair_plain. exact num_plain. Qed.
Lemma g2_plain (d : G2Data q) j : g2_json d = Ok j -> plain j.
Proof. apply pair_plain. intros x k. apply pair_plain. exact num_plain. Qed.
Lemma vec_plain {A} (ser : A -> res json) l j : (forall x j, ser x = Ok j -> plain j) -> vec_json ser l = Ok j -> plain j.
Proof.
  intros H. unfold vec_json. destruct (rmapM ser l) as [js|] eqn:E; [|discriminate]. cbn [rmap rbind]. intros [= <-]. constructor.
  revert js E. induction l as [|x l IH]; cbn [rmapM]; intros js E; [injection E as <-; constructor|].
  destruct (ser x) as [a|] eqn:E1; [|discriminate]. cbn [rbind] in E. destruct (rmapM ser l) as [bs|]; [|discriminate]. cbn [rbind] in E.
  injection E as <-. constructor; eauto.
Qed.
Lemma pkey k : forallb (fun c => (48 <=? c) && (c <=? 57) || (97 <=? c) && (c <=? 122) || (c =? 95))%Z%bool k = true -> Forall pchar k.
Proof. intros H. apply Forall_forall. intros c Hc. rewrite forallb_forall in H. specialize (H c Hc). unfold pchar. lia. Qed.
Lemma pd_plain (d : ProofData q) j : pd_json d = Ok j -> plain j.
Proof.
  unfold pd_json. destruct (g1_json (pd_a d)) as [a|] eqn:E1; [|discriminate]. cbn [rbind]. destruct (g2_json (pd_b d)) as [b|] eqn:E2; [|discriminate]. cbn [rbind].
  destruct (g1_json (pd_c d)) as [c|] eqn:E3; [|discriminate]. cbn [rbind]. intros [= <-].
  apply g1_plain in E1, E3. apply g2_plain in E2. constructor. repeat (apply Forall_cons; [split; cbn [fst snd]; [apply pkey; reflexivity|assumption]|]). constructor.
Qed.
Lemma vd_plain (d : VKData q) j : vd_json d = Ok j -> plain j.
Proof.
  unfold vd_json. destruct (g1_json (vd_alpha d)) as [a|] eqn:E1; [|discriminate]. cbn [rbind]. destruct (g2_json (vd_beta d)) as [b|] eqn:E2; [|discriminate]. cbn [rbind].
  destruct (g2_json (vd_gamma d)) as [c|] eqn:E3; [|discriminate]. cbn [rbind]. destruct (g2_json (vd_delta d)) as [e|] eqn:E4; [|discriminate]. cbn [rbind].
  destruct (vec_json g1_json (vd_ic d)) as [i|] eqn:E5; [|discriminate]. cbn [rbind]. intros [= <-].
  apply g1_plain in E1. apply g2_plain in E2, E3, E4. apply vec_plain in E5; [|exact g1_plain].
  constructor. repeat (apply Forall_cons; [split; cbn [fst snd]; [apply pkey; reflexivity|assumption]|]). constructor.
Qed.
End Plain.
Lemma claim_C75_ethereum : forall SJ, json_ok SJ -> format_ok (ethereum_format SJ) key_valid proof_valid (fun _ => True).
Proof.
  intros SJ H. pose proof case_C74_roundtrip as [Q1 [Q2 _]].
  unfold ethereum_format, from_json. split; [|split]; cbn [f_vk f_vk_read f_proof f_proof_read f_inputs f_inputs_read].
  - intros vk KV. destruct (vd_json_ok Q1 eq_refl (vk_data vk)) as [j [J1 J2]]. pose proof (vd_plain Q1 eq_refl _ _ J1) as PL. rewrite J1. cbn [rmap rbind]. eexists. split; [reflexivity|].
    rewrite (H j PL). cbn [unwrap rbind]. rewrite J2. cbn [unwrap rbind]. exact (key_back vk KV).
  - intros pf PV. destruct (pd_json_ok Q1 eq_refl (pf_data pf)) as [j [J1 J2]]. pose proof (pd_plain Q1 eq_refl _ _ J1) as PL. rewrite J1. cbn [rmap rbind]. eexists. split; [reflexivity|].
    rewrite (H j PL). cbn [unwrap rbind]. rewrite J2. cbn [unwrap rbind]. exact (proof_back pf PV).
  - intros l _. destruct (vec_json_ok num_ser num_de l (num_json Q2 eq_refl)) as [j [J1 J2]]. pose proof (vec_plain _ _ _ (num_plain Q2 eq_refl) J1) as PL.
    rewrite J1. cbn [rmap rbind]. eexists. split; [reflexivity|]. rewrite (H j PL). cbn [unwrap rbind]. rewrite J2. reflexivity.
Qed.

(** ** Concrete cases *)
(** A pairing library over the numbers modulo 251 (points are their logarithms), whose
    prover solves the verification equation, and which knows the system's size only. *)
Definition toyE : Engine := mkEngine (Num 251) (Num 251) (Num 251) nadd n0 nneg (fun g k => g * num k)
  (fun l => fold_right (fun gh acc => fst gh * snd gh + acc) 0 l) Some n0 neqb.
Definition toy_vk (n : nat) : BellmanVK (Num 251) (Num 251) := mkBVK (num 2) (num 1) (num 3) (num 5) (num 1) (num 7) (repeat 1 n).
Definition toy_acc (n : nat) (l : list (Num 251)) : Num 251 :=
  fold_left (fun acc ib => acc + snd ib * num (nval (fst ib))) (combine l (skipn 1 (repeat 1 n))) 1.
Definition toyB : Bellman toyE 251 := mkBellman (E := toyE) (p := 251) nat
  (fun K _ => match k_inputs K with O => None | S _ => Some (k_inputs K) end)
  (fun P n _ => let a := num 2 * num 3 + (toy_acc n (skipn 1 (p_inputs P)) * num 5 + num 4 * num 7) in
     if nis_zero a then None else Some (mkPf a 1 (num 4)))
  toy_vk (repeat 0%Z) (fun l => Some (length l)).
Add Ring num251_ring : (@num_ring 251).
Lemma toy_complete : bellman_complete toyB.
Proof.
  intros K P r r' n pf [S1 _] _ HG HP. cbn [toyB b_generate b_prove b_vk] in *.
  destruct (k_inputs K) as [|k] eqn:EK; [discriminate|]. assert (n = S k) as -> by congruence. clear HG.
  destruct (nis_zero _) in HP; [discriminate|]. assert (pf = mkPf (num 2 * num 3 + (toy_acc (S k) (skipn 1 (p_inputs P)) * num 5 + num 4 * num 7)) 1 (num 4)) as -> by congruence.
  unfold verify, truncate_verifying_key, toy_vk. cbn [bv_ic vk_ic bv_alpha_g1 bv_beta_g2 bv_gamma_g2 bv_delta_g2 vk_alpha vk_beta vk_gamma vk_delta pf_a pf_b pf_c].
  rewrite repeat_length, skipn_length, <- S1. replace (S k - 1 + 1)%nat with (S k) by lia. rewrite Nat.eqb_refl. cbn [negb repeat nth_error unwrap rbind].
  change (fold_left _ _ _) with (toy_acc (S k) (skipn 1 (p_inputs P))). set (acc := toy_acc _ _). clearbody acc.
  cbn [toyE e_final e_miller fold_right fst snd e1neg ek_eqb ek_one unwrap rbind]. do 2 f_equal. apply neqb_eq. ring.
Qed.
Definition toyF : Format (Num 251) (Num 251) 251 := waves_format (toy_codec 1) (toy_codec 2) 251.
Definition toy_print (x : Num 251 * Num 251) : list Z := [nval (fst x); nval (snd x)].
Definition toy_parse (s : list Z) : option (Num 251 * Num 251) := match s with [a; b] => Some (num a, num b) | _ => None end.
Definition no_rnd : rnd := fun _ => None.
Definition no_files : files := fun _ => None.
(** The whole run on the square root circuit: 9 is the square of 3. The second time
    the file of inputs is replaced by one that holds 10. *)
Definition toy_session (tamper : bool) : res bool :=
  d1 <-? cli_setup (E := toyE) toyB toyF TNum TNum demo_main true [1%Z] [2%Z] no_rnd no_files ;
  d3 <-? cli_prove (E := toyE) toyB toyF TNum TNum demo_main toy_parse [1%Z] [3%Z] [4%Z] [5%Z] no_rnd
           (cli_generate_test_data TNum TNum toy_print (num 9, num 3) [3%Z] d1) ;
  bad <-? f_inputs toyF [num 10] ;
  cli_verify (E := toyE) toyF [2%Z] [4%Z] [5%Z] (if tamper then fs_write [5%Z] bad d3 else d3).
Lemma toy_bytes n : codec_bytes (toy_codec n).
Proof. intros g. apply le_bytes_byte. Qed.
Lemma case_C75_end_to_end : bellman_complete toyB /\ (forall x, b_read toyB (b_write toyB x) = Some x) /\
  (forall x, toy_parse (toy_print x) = Some x) /\ format_ok toyF (finite_key (toy_codec 1) (toy_codec 2)) (finite_proof (toy_codec 1) (toy_codec 2)) (fun _ => True) /\
  (forall x y, noin (demo_main x y)) /\
  (exists K u P u', key_system (co_synthesize TNum TNum demo_main None None) = Ok (K, u) /\
     prove_system (co_synthesize TNum TNum demo_main (Some (num 9)) (Some (num 3))) = Ok (P, u') /\ same_asm K P /\ asm_sat P) /\
  toy_session false = Ok true /\ toy_session true = Ok false.
Proof.
  split; [exact toy_complete|]. split; [intros x; cbn; now rewrite repeat_length|]. split; [intros [a b]; unfold toy_parse, toy_print; cbn [fst snd]; now rewrite !num_nval|].
  split; [apply claim_C75_waves; auto using toy_bytes; apply toy_codec_ok; lia|]. split; [exact demo_noin|].
  split; [|split; vm_compute; reflexivity].
  eexists _, _, _, _. split; [vm_compute; reflexivity|]. split; [vm_compute; reflexivity|]. split; [repeat split|].
  repeat constructor; apply num_eq; vm_compute; reflexivity.
Qed.
Lemma case_C75_verify : toy_session false = Ok true /\ toy_session true = Ok false /\
  cli_verify (E := toyE) toyF [2%Z] [4%Z] [5%Z] no_files = Panic.
Proof. repeat split; vm_compute; reflexivity. Qed.
Lemma case_C75_waves : codec_ok (toy_codec 1) /\ codec_bytes (toy_codec 1) /\ finite_proof (toy_codec 1) (toy_codec 2) (mkPf (num 5) 1 (num 4)) /\
  f_proof toyF (mkPf (num 5) 1 (num 4)) = Ok [66; 81; 69; 65; 66; 65; 61; 61]%Z.
Proof. split; [apply toy_codec_ok; lia|]. split; [apply toy_bytes|]. repeat split; vm_compute; reflexivity. Qed.
Lemma case_C75_waves_tail : Forall byte [1; 2]%Z /\ f_proof_read toyF (b64_encode (bproof_write (toy_codec 1) (toy_codec 2) (mkPf (num 5) 1 (num 4)) ++ [1; 2]%Z)) = Ok (mkPf (num 5) 1 (num 4)).
Proof. split; [repeat constructor; unfold byte; lia|]. apply claim_C75_waves_tail; try apply toy_bytes; try (apply toy_codec_ok; lia); [repeat split; vm_compute; reflexivity|repeat constructor; unfold byte; lia]. Qed.

(** ** C49: hashing into the field *)
(** The digest is as long as the field element, "__fawkes" personalizes it. *)
Lemma claim_C49_from_seed : forall (p : positive) (blob : list Z),
  @from_seed p blob = if Nat.eqb (num_bytes p) (8 * num_limbs p)
    then Ok (num (be_val (blake2s (num_bytes p) [95; 95; 102; 97; 119; 107; 101; 115]%Z blob))) else Panic.
Proof. intros p blob. unfold from_seed. apply from_binary_be_ok, blake2s_bytes. Qed.
(** An 8-byte and a 32-byte digest of "abc", with the values other implementations give *)
Lemma case_C49_from_seed : rmap nval (@from_seed (2 ^ 61 - 1) [97; 98; 99]%Z) = Ok 655715749085548242%Z /\
  rmap nval (@from_seed bn_r [97; 98; 99]%Z) = Ok 18262790625817975163487969469134132614022678293913369393137336089004264894546%Z.
Proof. split; vm_compute; reflexivity. Qed.

(** The generators of bn256 *)
Definition gen1 : Aff (Num bn_q) := mkAff (num 1) (num 2) false.
Definition gen2 : Aff (Fq2 bn_q) := mkAff
  (mkFq2 (num 10857046999023057135944570762232829481370756359578518086990519993285655852781) (num 11559732032986387107991004021392285783925812861821192530917403151452391805634))
  (mkFq2 (num 8495653923123431417604973247489272438418190587263600148770280649306958101930) (num 4082367875863433681332203403145435568316851327593401208105741076214120093531)) false.
Lemma gen1_on : on_g1 gen1.
Proof. split; [reflexivity|]. apply neqb_eq. vm_compute. reflexivity. Qed.
Lemma gen2_on : on_g2 gen2.
Proof. split; [reflexivity|]. rewrite bn_b2_eq. apply q2eqb_eq. vm_compute. reflexivity. Qed.
Lemma case_C75_near : proof_valid (mkPf gen1 gen2 gen1) /\ key_valid (mkVK gen1 gen2 gen2 gen2 [gen1; gen1]) /\
  (Z.of_nat (length [gen1; gen1]) < 2 ^ 32)%Z /\ rmap (@length Z) (f_proof near_format (mkPf gen1 gen2 gen1)) = Ok 344%nat.
Proof.
  pose proof gen1_on. pose proof gen2_on. split; [unfold proof_valid; cbn [pf_a pf_b pf_c]; auto|]. split; [unfold key_valid; cbn [vk_alpha vk_beta vk_gamma vk_delta vk_ic]; auto 10|].
  split; [reflexivity|vm_compute; reflexivity].
Qed.
Lemma case_C75_near_tail : byte 0%Z /\ f_proof_read near_format (b64_encode (pd_ser (pf_data (mkPf gen1 gen2 gen1)) ++ [0%Z])) = Panic.
Proof. split; [unfold byte; lia|]. apply claim_C75_near_tail; [unfold byte; lia|constructor]. Qed.

(** Compact JSON without white space, escapes and numbers: enough to meet [json_ok] *)
Fixpoint tj_sep (l : list (list Z)) : list Z :=
  match l with [] => [] | [x] => x | x :: l => x ++ 44%Z :: tj_sep l end.
Definition tj_quote (s : list Z) : list Z := (34 :: s ++ [34])%Z.
Fixpoint tj_print (j : json) : list Z :=
  match j with
  | JStr s => tj_quote s
  | JArr l => (91 :: tj_sep (map tj_print l) ++ [93])%Z
  | JObj m => (123 :: tj_sep (map (fun kv => tj_quote (fst kv) ++ 58 :: tj_print (snd kv)) m) ++ [125])%Z
  | JOther => [110; 117; 108; 108]%Z
  end.
Fixpoint tj_span (s : list Z) : option (list Z * list Z) :=
  match s with
  | [] => None
  | c :: s => if (c =? 34)%Z then Some ([], s) else option_map (fun ar => (c :: fst ar, snd ar)) (tj_span s)
  end.
Fixpoint tj_items {A} (f : list Z -> option (A * list Z)) (n : nat) (s : list Z) : option (list A * list Z) :=
  match n with
  | O => None
  | S n => match f s with
           | Some (x, c :: r) => if (c =? 44)%Z then option_map (fun lr => (x :: fst lr, snd lr)) (tj_items f n r) else Some ([x], c :: r)
           | _ => None
           end
  end.
Definition tj_member (f : list Z -> option (json * list Z)) (s : list Z) : option ((list Z * json) * list Z) :=
  match s with
  | c :: s => if (c =? 34)%Z then
      match tj_span s with
      | Some (k, e :: r) => if (e =? 58)%Z then option_map (fun jr => ((k, fst jr), snd jr)) (f r) else None
      | _ => None
      end else None
  | [] => None
  end.
Fixpoint tj_parse (n : nat) (s : list Z) : option (json * list Z) :=
  match n, s with
  | S n, c :: s =>
    if (c =? 34)%Z then option_map (fun ar => (JStr (fst ar), snd ar)) (tj_span s)
    else if (c =? 91)%Z then
      match s with
      | [] => None
      | e :: r => if (e =? 93)%Z then Some (JArr [], r) else
        match tj_items (tj_parse n) n s with
        | Some (l, e :: r) => if (e =? 93)%Z then Some (JArr l, r) else None
        | _ => None
        end
      end
    else if (c =? 123)%Z then
      match s with
      | [] => None
      | e :: r => if (e =? 125)%Z then Some (JObj [], r) else
        match tj_items (tj_member (tj_parse n)) n s with
        | Some (l, e :: r) => if (e =? 125)%Z then Some (JObj l, r) else None
        | _ => None
        end
      end
    else None
  | _, _ => None
  end.
Definition tinyJ : SerdeJson := mkSJ tj_print (fun s => match tj_parse (length s) s with Some (j, []) => Some j | _ => None end).
Lemma tj_span_ok k r : Forall pchar k -> tj_span (k ++ 34%Z :: r) = Some (k, r).
Proof.
  induction 1 as [|c k H _ IH]; cbn [app tj_span]; [reflexivity|]. destruct (Z.eqb_spec c 34); [unfold pchar in H; lia|]. rewrite IH. reflexivity.
Qed.
(** A list of items, each of which the parser of items reads back *)
Lemma tj_items_ok {A} (f : list Z -> option (A * list Z)) (pr : A -> list Z) n e : e <> 44%Z -> forall l r, l <> [] ->
  (forall x r, In x l -> f (pr x ++ r) = Some (x, r)) -> (length l <= n)%nat ->
  tj_items f n (tj_sep (map pr l) ++ e :: r) = Some (l, e :: r).
Proof.
  intros He. induction n as [|n IH]; intros l r NE Hf L; [destruct l; [contradiction|cbn in L; lia]|].
  destruct l as [|x [|y l]]; [contradiction| |].
  - cbn [map tj_sep tj_items]. rewrite Hf by now left. destruct (Z.eqb_spec e 44); [contradiction|reflexivity].
  - change (tj_sep (map pr (x :: y :: l))) with (pr x ++ 44%Z :: tj_sep (map pr (y :: l))). rewrite <- app_assoc. cbn [app tj_items].
    rewrite Hf by now left. cbn [Z.eqb Pos.eqb]. rewrite IH; [reflexivity|discriminate| |cbn in *; lia]. intros z r' Hz. apply Hf. now right.
Qed.
Lemma tj_sep_len (l : list (list Z)) : (forall x, In x l -> x <> []) -> (length l <= length (tj_sep l))%nat /\ (forall x, In x l -> length x <= length (tj_sep l))%nat.
Proof.
  induction l as [|x [|y l] IH]; intros H.
  - split; [cbn; lia|contradiction].
  - cbn [tj_sep length]. split; [|intros z [->|[]]; lia]. specialize (H x (or_introl eq_refl)). destruct x; [contradiction|cbn; lia].
  - change (tj_sep (x :: y :: l)) with (x ++ 44%Z :: tj_sep (y :: l)). rewrite app_length. cbn [length]. destruct IH as [I1 I2]; [intros; apply H; now right|].
    specialize (H x (or_introl eq_refl)). split; [destruct x; [contradiction|cbn [length] in *; lia]|]. intros z [->|Hz]; [lia|]. specialize (I2 z Hz). lia.
Qed.
Lemma tj_print_head j : plain j -> exists c t, tj_print j = c :: t /\ c <> 93%Z /\ c <> 125%Z.
Proof. intros H. destruct H; cbn [tj_print]; unfold tj_quote; eexists _, _; (split; [reflexivity|lia]). Qed.
Lemma tj_parse_ok n : forall j r, plain j -> (length (tj_print j) <= n)%nat -> tj_parse n (tj_print j ++ r) = Some (j, r).
Proof.
  induction n as [|n IH]; intros j r PL L.
  { destruct (tj_print_head j PL) as [c [t [E _]]]. rewrite E in L. cbn in L. lia. }
  destruct PL as [s Hs|l Hl|m Hm].
  - cbn [tj_print tj_quote app tj_parse Z.eqb Pos.eqb]. rewrite <- app_assoc. cbn [app]. now rewrite tj_span_ok.
  - cbn [tj_print app tj_parse Z.eqb Pos.eqb]. rewrite <- app_assoc. cbn [app]. destruct l as [|x l']; [reflexivity|].
    rewrite Forall_forall in Hl. set (l := x :: l') in *.
    assert (NE : forall y, In y (map tj_print l) -> y <> []).
    { intros y Hy. apply in_map_iff in Hy as [z [<- Hz]]. destruct (tj_print_head z (Hl z Hz)) as [c [t [-> _]]]. discriminate. }
    destruct (tj_sep_len _ NE) as [S1 S2]. rewrite map_length in S1. cbn [tj_print length] in L. rewrite app_length in L. cbn [length] in L.
    assert (X : tj_items (tj_parse n) n (tj_sep (map tj_print l) ++ 93%Z :: r) = Some (l, 93%Z :: r)).
    { apply tj_items_ok; [lia|discriminate| |lia]. intros y r' Hy. apply IH; [auto|]. specialize (S2 _ (in_map tj_print l y Hy)). lia. }
    destruct (tj_print_head x (Hl x (or_introl eq_refl))) as [c [t [Ec [C1 _]]]].
    assert (HD : exists t', tj_sep (map tj_print l) ++ 93%Z :: r = c :: t').
    { unfold l. cbn [map]. destruct l' as [|y l'']; cbn [map tj_sep]; rewrite Ec; cbn [app]; eauto. }
    destruct HD as [t' HD]. rewrite HD in *. destruct (Z.eqb_spec c 93); [contradiction|]. rewrite X. reflexivity.
  - cbn [tj_print app tj_parse Z.eqb Pos.eqb]. rewrite <- app_assoc. cbn [app]. destruct m as [|x m']; [reflexivity|].
    rewrite Forall_forall in Hm. set (m := x :: m') in *. set (pr := fun kv : list Z * json => tj_quote (fst kv) ++ 58%Z :: tj_print (snd kv)) in *.
    assert (NE : forall y, In y (map pr m) -> y <> []).
    { intros y Hy. apply in_map_iff in Hy as [z [<- Hz]]. unfold pr, tj_quote. discriminate. }
    destruct (tj_sep_len _ NE) as [S1 S2]. rewrite map_length in S1. cbn [tj_print length] in L. fold pr in L. rewrite app_length in L. cbn [length] in L.
    assert (X : tj_items (tj_member (tj_parse n)) n (tj_sep (map pr m) ++ 125%Z :: r) = Some (m, 125%Z :: r)).
    { apply tj_items_ok; [lia|discriminate| |lia]. intros [k j] r' Hy. destruct (Hm _ Hy) as [Hk Hj]. cbn [fst snd] in Hk, Hj. specialize (S2 _ (in_map pr m _ Hy)).
      unfold pr in *. cbn [fst snd] in *. unfold tj_quote in *. cbn [app] in *. cbn [tj_member Z.eqb Pos.eqb]. rewrite <- !app_assoc. cbn [app]. rewrite tj_span_ok by auto. cbn [Z.eqb Pos.eqb].
      rewrite IH; [reflexivity|auto|]. cbn [length] in S2. rewrite !app_length in S2. cbn [length] in S2. lia. }
    assert (HD : exists t', tj_sep (map pr m) ++ 125%Z :: r = 34%Z :: t').
    { unfold m. cbn [map]. destruct m' as [|y m'']; cbn [map tj_sep]; unfold pr at 1, tj_quote; cbn [app]; eauto. }
    destruct HD as [t' HD]. rewrite HD in *. cbn [Z.eqb Pos.eqb]. rewrite X. reflexivity.
Qed.
Lemma tinyJ_ok : json_ok tinyJ.
Proof. intros j PL. cbn [tinyJ sj_parse sj_print]. pose proof (tj_parse_ok (length (tj_print j)) j [] PL ltac:(lia)) as X. rewrite app_nil_r in X. now rewrite X. Qed.
Lemma case_C75_ethereum : json_ok tinyJ /\ proof_valid (mkPf gen1 gen2 gen1) /\ key_valid (mkVK gen1 gen2 gen2 gen2 [gen1; gen1]) /\
  f_inputs (ethereum_format tinyJ) [num 5; num 12] = Ok [91; 34; 53; 34; 44; 34; 49; 50; 34; 93]%Z.
Proof. split; [exact tinyJ_ok|]. split; [apply case_C75_near|]. split; [apply case_C75_near|]. vm_compute. reflexivity. Qed.

(** generate_verifier writes the contract for the key that setup wrote, as far as the
    one call of write takes it: the file is complete exactly if all bytes are taken. *)
Lemma claim_C75_generate_verifier : forall SJ chk n o_vk o_sol (d : files) vk s sol, json_ok SJ ->
  f_vk (ethereum_format SJ) vk = Ok s -> d o_vk = Some s -> generate_sol_data chk (vk_data vk) = Ok sol ->
  exists d', cli_generate_verifier SJ chk n o_vk o_sol d = Ok d' /\ d' o_sol = Some (firstn n sol) /\
    (d' o_sol = Some sol <-> (length sol <= n)%nat) /\ forall f, f <> o_sol -> d' f = d f.
Proof.
  intros SJ chk n o_vk o_sol d vk s sol H Hs Hd HS. pose proof case_C74_roundtrip as [Q1 _]. cbn [ethereum_format f_vk] in Hs.
  destruct (vd_json_ok Q1 eq_refl (vk_data vk)) as [j [J1 J2]]. pose proof (vd_plain Q1 eq_refl _ _ J1) as PL. rewrite J1 in Hs. cbn [rmap rbind] in Hs.
  assert (s = sj_print SJ j) as -> by congruence. exists (fs_write o_sol (firstn n sol) d). split; [|split; [apply fs_same|split]].
  - unfold cli_generate_verifier, fs_read, from_json. rewrite Hd. cbn [unwrap rbind]. rewrite (H j PL). cbn [unwrap rbind]. rewrite J2. cbn [unwrap rbind]. rewrite HS. reflexivity.
  - rewrite fs_same. split.
    + intros X. assert (E : firstn n sol = sol) by congruence. apply (f_equal (@length Z)) in E. rewrite firstn_length in E. lia.
    + intros L. now rewrite firstn_all2.
  - intros f Hf. apply fs_other. congruence.
Qed.
Lemma case_C75_generate_verifier : json_ok tinyJ /\
  (exists s, f_vk (ethereum_format tinyJ) (mkVK gen1 gen2 gen2 gen2 [gen1; gen1]) = Ok s /\ (length s > 100)%nat) /\
  (exists sol, generate_sol_data true (vk_data (mkVK gen1 gen2 gen2 gen2 [gen1; gen1])) = Ok sol /\ (length sol > 100)%nat).
Proof.
  split; [exact tinyJ_ok|]. split.
  - destruct (f_vk _ _) as [s|] eqn:E; [|vm_compute in E; discriminate]. exists s. split; auto. apply Nat.ltb_lt.
    assert (X : match f_vk (ethereum_format tinyJ) (mkVK gen1 gen2 gen2 gen2 [gen1; gen1]) with Ok s => Nat.ltb 100 (length s) | Panic => false end = true) by (vm_compute; reflexivity).
    rewrite E in X. exact X.
  - destruct (generate_sol_data _ _) as [s|] eqn:E; [|vm_compute in E; discriminate]. exists s. split; auto. apply Nat.ltb_lt.
    assert (X : match generate_sol_data true (vk_data (mkVK gen1 gen2 gen2 gen2 [gen1; gen1])) with Ok s => Nat.ltb 100 (length s) | Panic => false end = true) by (vm_compute; reflexivity).
    rewrite E in X. exact X.
Qed.
