(** The texts that enter hashes and files, spelled out. *)

From Verif Require Export SeedClaims FormatClaims SolidityClaims Eddsa.
Open Scope Z_scope.

(* C59 *)
(** The personalization of the Seedbox and of the group hash, and the seeds (constants.rs) *)
Lemma claim_C59_texts : PERSONALIZATION = codes "__fawkes" /\ SEED_EDWARDS_G = codes "edwards_g" /\ SEED_EDDSA_POSEIDON = codes "eddsaposeidon".
Proof. repeat split. Qed.
Lemma case_C59_texts : codes "__fawkes" = [95; 95; 102; 97; 119; 107; 101; 115] /\ length (codes "eddsaposeidon") = 13%nat.
Proof. split; reflexivity. Qed.

(* C60 *)
Lemma claim_C60_salt : forall t f q : nat, pp_salt t f q =
  codes "fawkes_poseidon(t=" ++ biguint_to_string (Z.of_nat t) ++ codes ",f=" ++ biguint_to_string (Z.of_nat f) ++
  codes ",p=" ++ biguint_to_string (Z.of_nat q) ++ codes ")".
Proof. reflexivity. Qed.
Lemma case_C60_salt : pp_salt 3 8 53 = codes "fawkes_poseidon(t=3,f=8,p=53)" /\ pp_salt 4 8 54 = codes "fawkes_poseidon(t=4,f=8,p=54)".
Proof. split; vm_compute; reflexivity. Qed.

(* C74 *)
(** The JSON of a proof and of a verifying key, name by name and number by number *)
Lemma claim_C74_layout : forall q : positive, Nat.eqb (num_bytes q) (8 * num_limbs q) = true ->
  let s := fun a : Num q => JStr (biguint_to_string (nval a)) in
  let g1 := fun P : G1Data q => JArr [s (fst P); s (snd P)] in
  let g2 := fun P : G2Data q => JArr [JArr [s (fst (fst P)); s (snd (fst P))]; JArr [s (fst (snd P)); s (snd (snd P))]] in
  (forall (a c : G1Data q) (b : G2Data q), pd_json (mkPD a b c) = Ok (JObj [(codes "a", g1 a); (codes "b", g2 b); (codes "c", g1 c)])) /\
  (forall (alpha : G1Data q) (beta gamma delta : G2Data q) (ic : list (G1Data q)), vd_json (mkVKD alpha beta gamma delta ic) =
     Ok (JObj [(codes "alpha_g1", g1 alpha); (codes "beta_g2", g2 beta); (codes "gamma_g2", g2 gamma); (codes "delta_g2", g2 delta);
               (codes "ic", JArr (map g1 ic))])).
Proof.
  intros q H s g1 g2. assert (N : forall a : Num q, num_ser a = Ok (s a)) by (intros a; unfold num_ser; rewrite num_to_string_ok; unfold full_bytes; now rewrite H).
  assert (E1 : forall P : G1Data q, g1_json P = Ok (g1 P)) by (intros P; unfold g1_json, pair_ser; now rewrite !N).
  assert (E2 : forall P : G2Data q, g2_json P = Ok (g2 P)) by (intros P; unfold g2_json, pair_ser; now rewrite !N).
  split.
  - intros a c b. unfold pd_json. cbn [pd_a pd_b pd_c]. now rewrite !E1, E2.
  - intros alpha beta gamma delta ic. unfold vd_json. cbn [vd_alpha vd_beta vd_gamma vd_delta vd_ic]. rewrite E1, !E2. cbn [rbind].
    assert (M : vec_json g1_json ic = Ok (JArr (map g1 ic))).
    { unfold vec_json. assert (R : rmapM g1_json ic = Ok (map g1 ic)) by (induction ic as [|x l IH]; [reflexivity|]; cbn [rmapM map]; rewrite E1; cbn [rbind]; now rewrite IH).
      now rewrite R. }
    now rewrite M.
Qed.
Lemma case_C74_layout : Nat.eqb (num_bytes bn_q) (8 * num_limbs bn_q) = true /\
  pd_json (mkPD (num 1, num 20) ((num 3, num 4), (num 5, num 6)) (num 7, num 8) : ProofData bn_q) =
  Ok (JObj [(codes "a", JArr [JStr (codes "1"); JStr (codes "20")]);
            (codes "b", JArr [JArr [JStr (codes "3"); JStr (codes "4")]; JArr [JStr (codes "5"); JStr (codes "6")]]);
            (codes "c", JArr [JStr (codes "7"); JStr (codes "8")])]).
Proof. split; vm_compute; reflexivity. Qed.
