(** Generated from MetaClaims.v by tools/genprops.py. *)
From Verif Require Import MetaClaims.
Open Scope num_scope.

(** C02. [R] is every circuit number obtained; the numbers handed to the
    constraint system are covered too. *)
Theorem C02_canonical : forall p l (Hp : prime (Zpos p)) sqrt PP (J : JubJub p l) wit ops U tr o,
  In I0 U -> exec U (circuit sqrt PP J false wit ops []) tr o ->
  let canon (c : CNum p) := StronglySorted (fun x y => icmp (fst x) (fst y) = Lt) (clc c) /\ NoDup (map fst (clc c)) /\
      forall k v, In (k, v) (clc c) -> v = 0 -> k = I0 in
  (forall R c, o = Some R -> In c R -> canon c) /\
  (forall a b c, In (EEnf a b c) tr -> canon a /\ canon b /\ canon c).
Proof. exact claim_C02_canonical. Qed.
Print Assumptions C02_canonical.

(** C05, proving: every cached value is the linear combination at the
    assignment handed over, which exists. *)
Theorem C05_proving : forall p l (Hp : prime (Zpos p)) sqrt PP (J : JubJub p l) (wit : nat -> Num p) ops U tr o,
  In I0 U -> exec U (circuit sqrt PP J false (fun k => Some (wit k)) ops []) tr o ->
  (exists s, s I0 = 1 /\ honest s tr) /\
  (forall s, s I0 = 1 -> honest s tr ->
     (forall R c, o = Some R -> In c R -> cvalue c = Some (ceval s c)) /\
     (forall a b c, In (EEnf a b c) tr ->
        cvalue a = Some (ceval s a) /\ cvalue b = Some (ceval s b) /\ cvalue c = Some (ceval s c))).
Proof. exact claim_C05_proving. Qed.
Print Assumptions C05_proving.

(** C05, setup: no cached value except on constants, in circuits that do not
    give constants to the gadgets that compute hints from their arguments. *)
Theorem C05_setup : forall p l (Hp : prime (Zpos p)) sqrt PP (J : JubJub p l) ops U tr R c,
  ju J <> 0 -> In I0 U -> exec U (circuit sqrt PP J true (fun _ => None) ops []) tr (Some R) -> In c R ->
  forall v, cvalue c = Some v -> as_const c = Some v.
Proof. exact claim_C05_setup. Qed.
Print Assumptions C05_setup.

(** The restriction only removes circuits: where the restricted run does not
    panic it is a run of the library. *)
Theorem C05_setup_runs : forall p l sqrt PP (J : JubJub p l) wit ops R0 U tr R,
  exec U (circuit sqrt PP J true wit ops R0) tr (Some R) -> exec U (circuit sqrt PP J false wit ops R0) tr (Some R).
Proof. exact claim_C05_setup_runs. Qed.
Print Assumptions C05_setup_runs.

Example C02_canonical_case : exists tr R, prime 73 /\ exec [I0] (demo_run false demo_prove) tr (Some R) /\
  length R = 31%nat /\ length tr = 395%nat /\ clc (nth 5 R czero) = [(I0, num (-5)); (Aux 2, num 1)].
Proof. exact case_C02_canonical. Qed.

Example C05_proving_case : exists tr R, prime 73 /\ exec [I0] (demo_run false demo_prove) tr (Some R) /\
  map (fun c => option_map nval (cvalue c)) (firstn 9 R) = map Some [1; 6; 5; 7; 7; 2; 1; 0; 6]%Z.
Proof. exact case_C05_proving. Qed.

Example C05_setup_case : exists tr R, prime 73 /\ ju toy2 <> 0 /\ exec [I0] (demo_run true (fun _ => None)) tr (Some R) /\
  map (fun c => option_map nval (cvalue c)) (firstn 4 R) = [None; None; Some 5%Z; None].
Proof. exact case_C05_setup. Qed.

Example C05_setup_runs_case : exists tr R, exec [I0] (demo_run true (fun _ => None)) tr (Some R) /\ length R = 31%nat.
Proof. exact case_C05_setup_runs. Qed.

(** Without the restriction the setup half of C05 is false: decompressing a
    constant leaves a cached value on a variable. *)
Theorem C05_setup_hint_refuted : exists tr R c v,
  exec [I0] (circuit sqrt_search toyPP toy2 false (fun _ => None) [oConst (num 1); oEDecompress 0] []) tr (Some R) /\
  In c R /\ cvalue c = Some v /\ as_const c = None.
Proof. exact claim_C05_setup_hint_refuted. Qed.
Print Assumptions C05_setup_hint_refuted.

Example C05_setup_hint_refuted_case : prime 73 /\ jubjub_ok toy2.
Proof. exact case_C05_setup_hint_refuted. Qed.

(** C12. [be] is a back end: it names variables from the calls it has seen. *)
Theorem C12_same_system : forall p l sqrt PP (J : JubJub p l) wit wit' ops (be : list (@call p) -> Index) R R',
  snd (drive be [] (circuit sqrt PP J false wit ops [])) = Some R ->
  snd (drive be [] (circuit sqrt PP J false wit' ops [])) = Some R' ->
  fst (drive be [] (circuit sqrt PP J false wit ops [])) = fst (drive be [] (circuit sqrt PP J false wit' ops [])) /\
  map clc R = map clc R'.
Proof. exact claim_C12_same_system. Qed.
Print Assumptions C12_same_system.

Example C12_same_system_case : exists R R',
  snd (drive first_aux [] (demo_run false demo_prove)) = Some R /\ snd (drive first_aux [] (demo_run false (fun _ => None))) = Some R' /\
  length (fst (drive first_aux [] (demo_run false demo_prove))) = 395%nat /\
  cvalue (nth 0 R czero) = Some (num 1) /\ cvalue (nth 0 R' czero) = None.
Proof. exact case_C12_same_system. Qed.

(** C13. [limits]: bit lengths asked for do not exceed the size of the field. *)
Theorem C13_setup_total : forall p l sqrt PP (J : JubJub p l) wit ops (be : list (@call p) -> Index) R,
  (2 <= num_bits p)%nat -> Forall limits ops ->
  snd (drive be [] (circuit sqrt PP J false wit ops [])) = Some R ->
  exists R', snd (drive be [] (circuit sqrt PP J false (fun _ => None) ops [])) = Some R' /\
    fst (drive be [] (circuit sqrt PP J false wit ops [])) = fst (drive be [] (circuit sqrt PP J false (fun _ => None) ops [])).
Proof. exact claim_C13_setup_total. Qed.
Print Assumptions C13_setup_total.

Example C13_setup_total_case : (2 <= num_bits 73)%nat /\ Forall limits demo_ops /\
  exists R, snd (drive first_aux [] (demo_run false demo_prove)) = Some R.
Proof. exact case_C13_setup_total. Qed.

Theorem C13_limit_refuted : exists R tr tr',
  exec [I0] (bits255 (fun _ => Some (num 5))) tr (Some R) /\ exec [I0] (bits255 (fun _ => None)) tr' None.
Proof. exact claim_C13_limit_refuted. Qed.
Print Assumptions C13_limit_refuted.

Example C13_limit_refuted_case : Z.of_nat (num_bits bn_r) = 254%Z.
Proof. exact case_C13_limit_refuted. Qed.
