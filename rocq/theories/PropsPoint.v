(** Generated from PointClaims.v by tools/genprops.py. *)
From Verif Require Import PointClaims.
Open Scope Z_scope.

(** The hard-coded coefficients: 3, 3 / (9 + u), 4, 4 (1 + u). *)
Theorem C51_coefficients : bn_b = num 3 /\ q2mul bn_b2 (mkFq2 (num 9) (num 1)) = mkFq2 (num 3) (num 0) /\
  bls_b = num 4 /\ bls_b2 = mkFq2 (num 4) (num 4).
Proof. exact claim_C51_coefficients. Qed.
Print Assumptions C51_coefficients.

Theorem C51_bn_roundtrip : forall (a : Aff (Num bn_q)) (c : Aff (Fq2 bn_q)),
  (ainf a = false -> nmul (ay a) (ay a) = nadd (nmul (nmul (ax a) (ax a)) (ax a)) (num 3)) ->
  (ainf c = false -> q2mul (ay c) (ay c) = q2add (q2mul (q2mul (ax c) (ax c)) (ax c)) bn_b2) ->
  (exists a', bn_g1 (g1_data a) = Ok a' /\ same_pt a' a /\ (ainf a = false -> a' = a)) /\
  (exists c', bn_g2 (g2_data c) = Ok c' /\ same_pt c' c /\ (ainf c = false -> c' = c)).
Proof. exact claim_C51_bn_roundtrip. Qed.
Print Assumptions C51_bn_roundtrip.

(** BLS12-381: for points killed by the group order. *)
Theorem C51_bls_roundtrip : forall (a : Aff (Num bls_q)) (c : Aff (Fq2 bls_q)),
  (ainf a = false -> nmul (ay a) (ay a) = nadd (nmul (nmul (ax a) (ax a)) (ax a)) (num 4)) ->
  (ainf c = false -> q2mul (ay c) (ay c) = q2add (q2mul (q2mul (ax c) (ax c)) (ax c)) (mkFq2 (num 4) (num 4))) ->
  wmul (fq bls_q) bls_ord (aff_pt a) = None -> wmul (fq2 bls_q) bls_ord (aff_pt c) = None ->
  (exists a', bls_g1 (g1_data a) = Ok a' /\ same_pt a' a /\ (ainf a = false -> a' = a)) /\
  (exists c', bls_g2 (g2_data c) = Ok c' /\ same_pt c' c /\ (ainf c = false -> c' = c)).
Proof. exact claim_C51_bls_roundtrip. Qed.
Print Assumptions C51_bls_roundtrip.

(** Data that is accepted gives infinity or a point of the curve (and, for BLS12-381,
    of the subgroup), and converting back gives the same data. Everything else panics. *)
Theorem C51_accepted : 
  (forall (d : G1Data bn_q) a, bn_g1 d = Ok a -> g1_data a = d /\
     (ainf a = true \/ nmul (ay a) (ay a) = nadd (nmul (nmul (ax a) (ax a)) (ax a)) (num 3))) /\
  (forall (d : G2Data bn_q) a, bn_g2 d = Ok a -> g2_data a = d /\
     (ainf a = true \/ q2mul (ay a) (ay a) = q2add (q2mul (q2mul (ax a) (ax a)) (ax a)) bn_b2)) /\
  (forall (d : G1Data bls_q) a, bls_g1 d = Ok a -> g1_data a = d /\ wmul (fq bls_q) bls_ord (aff_pt a) = None /\
     (ainf a = true \/ nmul (ay a) (ay a) = nadd (nmul (nmul (ax a) (ax a)) (ax a)) (num 4))) /\
  (forall (d : G2Data bls_q) a, bls_g2 d = Ok a -> g2_data a = d /\ wmul (fq2 bls_q) bls_ord (aff_pt a) = None /\
     (ainf a = true \/ q2mul (ay a) (ay a) = q2add (q2mul (q2mul (ax a) (ax a)) (ax a)) (mkFq2 (num 4) (num 4)))).
Proof. exact claim_C51_accepted. Qed.
Print Assumptions C51_accepted.

Theorem C51_rejected : 
  (forall x y : Num bn_q, ~ (x = n0 /\ y = n0) -> nmul y y <> nadd (nmul (nmul x x) x) (num 3) -> bn_g1 (x, y) = Panic) /\
  (forall x1 x0 y1 y0 : Num bn_q, ~ (x0 = n0 /\ x1 = n0 /\ y0 = n0 /\ y1 = n0) ->
     q2mul (mkFq2 y0 y1) (mkFq2 y0 y1) <> q2add (q2mul (q2mul (mkFq2 x0 x1) (mkFq2 x0 x1)) (mkFq2 x0 x1)) bn_b2 ->
     bn_g2 ((x1, x0), (y1, y0)) = Panic) /\
  (forall x y : Num bls_q, ~ (x = n0 /\ y = n0) -> nmul y y <> nadd (nmul (nmul x x) x) (num 4) -> bls_g1 (x, y) = Panic) /\
  (forall x1 x0 y1 y0 : Num bls_q, ~ (x0 = n0 /\ x1 = n0 /\ y0 = n0 /\ y1 = n0) ->
     q2mul (mkFq2 y0 y1) (mkFq2 y0 y1) <> q2add (q2mul (q2mul (mkFq2 x0 x1) (mkFq2 x0 x1)) (mkFq2 x0 x1)) (mkFq2 (num 4) (num 4)) ->
     bls_g2 ((x1, x0), (y1, y0)) = Panic).
Proof. exact claim_C51_rejected. Qed.
Print Assumptions C51_rejected.

(** Proofs and keys are converted point by point. *)
Theorem C51_proof_and_key : forall (P : Proof_ (Aff (Num bn_q)) (Aff (Fq2 bn_q))) (V : VK (Aff (Num bn_q)) (Aff (Fq2 bn_q))),
  let v1 a := ainf a = false /\ nmul (ay a) (ay a) = nadd (nmul (nmul (ax a) (ax a)) (ax a)) (num 3) in
  let v2 a := ainf a = false /\ q2mul (ay a) (ay a) = q2add (q2mul (q2mul (ax a) (ax a)) (ax a)) bn_b2 in
  (v1 (pf_a P) -> v2 (pf_b P) -> v1 (pf_c P) -> pf_of_data bn_g1 bn_g2 (pf_data P) = Ok P) /\
  (v1 (vk_alpha V) -> v2 (vk_beta V) -> v2 (vk_gamma V) -> v2 (vk_delta V) -> Forall v1 (vk_ic V) ->
     vk_of_data bn_g1 bn_g2 (vk_data V) = Ok V).
Proof. exact claim_C51_proof_and_key. Qed.
Print Assumptions C51_proof_and_key.

(** As records, the point at infinity of the pairing crate, [(0, 1, true)], is not given back. *)
Theorem C51_infinity_record_refuted : exists a : Aff (Num bn_q), ainf a = true /\ bn_g1 (g1_data a) <> Ok a.
Proof. exact claim_C51_infinity_record_refuted. Qed.
Print Assumptions C51_infinity_record_refuted.

Example C51_generator_case : bn_g1 (num 1, num 2) = Ok (mkAff (num 1) (num 2) false) /\ bn_g1 (num 1, num 3) = Panic /\
  bls_g1 (n0, n0) = Ok (mkAff n0 n0 true) /\ bls_g1 (num 1, num 3) = Panic.
Proof. exact case_C51_generator. Qed.

Theorem C54_roundtrip : forall (q : positive) (rest : list Z) (p1 : G1Data q) (p2 : G2Data q) (pd : ProofData q) (vd : VKData q),
  g1_de (g1_ser p1 ++ rest) = Some (p1, rest) /\ g2_de (g2_ser p2 ++ rest) = Some (p2, rest) /\
  pd_de (pd_ser pd ++ rest) = Some (pd, rest) /\
  (Z.of_nat (length (vd_ic vd)) < 2 ^ 32 -> vd_de (vd_ser vd ++ rest) = Some (vd, rest)).
Proof. exact claim_C54_roundtrip. Qed.
Print Assumptions C54_roundtrip.

(** The layout: consecutive field elements, each [8 limbs] bytes little endian; for
    G2 the real part first, although the data holds the imaginary part first. *)
Theorem C54_layout : forall (q : positive) (x y : Num q) (x1 x0 y1 y0 : Num q) (p1 p3 : G1Data q) (p2 : G2Data q),
  let n := (8 * num_limbs q)%nat in
  g1_ser (x, y) = le_bytes n (nval x) ++ le_bytes n (nval y) /\
  g2_ser ((x1, x0), (y1, y0)) = le_bytes n (nval x0) ++ le_bytes n (nval x1) ++ le_bytes n (nval y0) ++ le_bytes n (nval y1) /\
  length (pd_ser (mkPD p1 p2 p3)) = (8 * n)%nat.
Proof. exact claim_C54_layout. Qed.
Print Assumptions C54_layout.

(** Whatever decodes is the encoding of the result: everything else is an error. *)
Theorem C54_exact : forall (q : positive) (buf : list Z), Forall byte buf ->
  match @g1_de q buf with Some (v, rest) => buf = g1_ser v ++ rest | None => forall (v : G1Data q) rest, buf <> g1_ser v ++ rest end /\
  match @g2_de q buf with Some (v, rest) => buf = g2_ser v ++ rest | None => forall (v : G2Data q) rest, buf <> g2_ser v ++ rest end /\
  match @pd_de q buf with Some (v, rest) => buf = pd_ser v ++ rest | None => forall (v : ProofData q) rest, buf <> pd_ser v ++ rest end /\
  match @vd_de q buf with
  | Some (v, rest) => Z.of_nat (length (vd_ic v)) < 2 ^ 32 /\ buf = vd_ser v ++ rest
  | None => forall (v : VKData q) rest, Z.of_nat (length (vd_ic v)) < 2 ^ 32 -> buf <> vd_ser v ++ rest
  end.
Proof. exact claim_C54_exact. Qed.
Print Assumptions C54_exact.

Theorem C54_injective : forall (q : positive),
  (forall a b : G1Data q, g1_ser a = g1_ser b -> a = b) /\ (forall a b : G2Data q, g2_ser a = g2_ser b -> a = b) /\
  (forall a b : ProofData q, pd_ser a = pd_ser b -> a = b) /\
  (forall a b : VKData q, Z.of_nat (length (vd_ic a)) < 2 ^ 32 -> Z.of_nat (length (vd_ic b)) < 2 ^ 32 -> vd_ser a = vd_ser b -> a = b).
Proof. exact claim_C54_injective. Qed.
Print Assumptions C54_injective.

Example C54_roundtrip_case :  let d := mkVKD (num 1, num 2) ((num 3, num 4), (num 5, num 6)) ((num 7, num 8), (num 9, num 10)) ((num 11, num 12), (num 0, num 1)) [(num 2, num 3); (num 4, num 5)] : VKData 13 in
  length (vd_ser d) = 148%nat /\ @vd_de 13 (vd_ser d ++ [7]) = Some (d, [7]) /\ @vd_de 13 (firstn 100 (vd_ser d)) = None.
Proof. exact case_C54_roundtrip. Qed.
