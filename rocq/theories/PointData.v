(** Point data of the Groth16 helpers and their borsh encodings:
    src/helpers/groth16/mod.rs:20-229, prover.rs:19-81, verifier.rs:15-85, near.rs. Model only. *)

From Verif Require Export NumCodec Poseidon.
Open Scope Z_scope.

(** Base fields of the two pairing curves (pairing 0.18: bn256::Fq, bls12_381::Fq) and
    the orders of the groups (Fr). *)
Definition bn_q : positive := 21888242871839275222246405745257275088696311157297823662689037894645226208583.
Definition bls_q : positive := 4002409555221667393417789825735904156556882819939007885332058136124031650490837864442687629129015664037894272559787.
Definition bn_ord : positive := 21888242871839275222246405745257275088548364400416034343698204186575808495617.
Definition bls_ord : positive := 52435875175126190479447740508185965837690552500527637822603658699938581184513.

(** Arithmetic used by is_on_curve and the group law, for Fq and Fq2. *)
Record fops (K : Type) := mkFops { k0 : K; kadd : K -> K -> K; ksub : K -> K -> K; kmul : K -> K -> K; kdiv : K -> K -> K; keqb : K -> K -> bool }.
Arguments k0 {K}. Arguments kadd {K}. Arguments ksub {K}. Arguments kmul {K}. Arguments kdiv {K}. Arguments keqb {K}.

Definition fq (q : positive) : fops (Num q) := mkFops _ n0 nadd nsub nmul fdiv neqb.

(** Fq2 = Fq[u] / (u^2 + 1) (pairing bn256::Fq2, bls12_381::Fq2) *)
Record Fq2 (q : positive) := mkFq2 { c0 : Num q; c1 : Num q }.
Arguments mkFq2 {q}. Arguments c0 {q}. Arguments c1 {q}.
Section Quadratic.
Context {q : positive}.
Definition q2add (a b : Fq2 q) : Fq2 q := mkFq2 (nadd (c0 a) (c0 b)) (nadd (c1 a) (c1 b)).
Definition q2sub (a b : Fq2 q) : Fq2 q := mkFq2 (nsub (c0 a) (c0 b)) (nsub (c1 a) (c1 b)).
Definition q2mul (a b : Fq2 q) : Fq2 q :=
  mkFq2 (nsub (nmul (c0 a) (c0 b)) (nmul (c1 a) (c1 b))) (nadd (nmul (c0 a) (c1 b)) (nmul (c1 a) (c0 b))).
Definition q2div (a b : Fq2 q) : Fq2 q :=
  let n := finv (nadd (nsquare (c0 b)) (nsquare (c1 b))) in
  q2mul a (mkFq2 (nmul (c0 b) n) (nneg (nmul (c1 b) n))).
Definition q2eqb (a b : Fq2 q) : bool := neqb (c0 a) (c0 b) && neqb (c1 a) (c1 b).
Definition q2zero : Fq2 q := mkFq2 n0 n0.
Definition q2is_zero (a : Fq2 q) : bool := nis_zero (c0 a) && nis_zero (c1 a).
End Quadratic.
Definition fq2 (q : positive) : fops (Fq2 q) := mkFops _ q2zero q2add q2sub q2mul q2div q2eqb.

(** [from_raw_repr]: a Montgomery representation with radix 2^(64 limbs) *)
Definition from_raw {q : positive} (ls : list Z) : Num q :=
  fdiv (num (repr_val ls)) (num (2 ^ (64 * Z.of_nat (length ls)))).
(** BN256_B_COEFF (mod.rs:20-28) *)
Definition bn_b_raw : list Z := [0x7a17caa950ad28d7; 0x1f6ac17ae15521b9; 0x334bea4e696bd284; 0x2a1f6744ce179d8e].
Definition bn_b : Num bn_q := from_raw bn_b_raw.
(** BN256_B_COEFF_FQ2 (mod.rs:30-47) *)
Definition bn_b2_raw0 : list Z := [0x3bf938e377b802a8; 0x020b1b273633535d; 0x26b7edf049755260; 0x2514c6324384a86d].
Definition bn_b2_raw1 : list Z := [0x38e7ecccd1dcff67; 0x65f0b37d93ce0d3e; 0xd749d0dd22ac00aa; 0x0141b9ce4a688d4d].
Definition bn_b2 : Fq2 bn_q := mkFq2 (from_raw bn_b2_raw0) (from_raw bn_b2_raw1).
(** BLS12_381_B_COEFF (mod.rs:49-60) *)
Definition bls_b_raw : list Z :=
  [0xaa270000000cfff3; 0x53cc0032fc34000a; 0x478fe97a6b0a807f; 0xb1d37ebee6ba24d7; 0x8ec9733bbf78ab2f; 0x9d645513d83de7e].
Definition bls_b : Num bls_q := from_raw bls_b_raw.
(** BLS12_381_B_COEFF_FQ2 (mod.rs:62-83) *)
Definition bls_b2 : Fq2 bls_q := mkFq2 (from_raw bls_b_raw) (from_raw bls_b_raw).

(** Affine points of the pairing crate, [(x, y, infinity)] (the layout the transmutes rely on) *)
Record Aff (K : Type) := mkAff { ax : K; ay : K; ainf : bool }.
Arguments mkAff {K}. Arguments ax {K}. Arguments ay {K}. Arguments ainf {K}.

(** is_on_curve (mod.rs:93-107) *)
Definition is_on_curve {K} (O : fops K) (x y : K) (is_zero : bool) (b : K) : bool :=
  if is_zero then true
  else
    let y2 := kmul O y y in
    let x3b := kadd O (kmul O (kmul O x x) x) b in
    keqb O y2 x3b.

(** Group law of y^2 = x^3 + b and [CurveAffine::mul] (pairing): double and add over
    the bits of the scalar from the highest. [None] is infinity. Simplified: the crate
    computes in Jacobian coordinates. *)
Section Law.
Context {K : Type} (O : fops K).
Definition wdouble (P : option (K * K)) : option (K * K) :=
  match P with
  | None => None
  | Some (x, y) =>
      if keqb O y (k0 O) then None
      else
        let xx := kmul O x x in
        let l := kdiv O (kadd O (kadd O xx xx) xx) (kadd O y y) in
        let x3 := ksub O (ksub O (kmul O l l) x) x in
        Some (x3, ksub O (kmul O l (ksub O x x3)) y)
  end.
Definition wadd (P Q : option (K * K)) : option (K * K) :=
  match P, Q with
  | None, _ => Q
  | _, None => P
  | Some (x1, y1), Some (x2, y2) =>
      if keqb O x1 x2 then if keqb O y1 y2 then wdouble P else None
      else
        let l := kdiv O (ksub O y2 y1) (ksub O x2 x1) in
        let x3 := ksub O (ksub O (kmul O l l) x1) x2 in
        Some (x3, ksub O (kmul O l (ksub O x1 x3)) y1)
  end.
Fixpoint wmul (k : positive) (P : option (K * K)) : option (K * K) :=
  match k with
  | xH => P
  | xO k => wdouble (wmul k P)
  | xI k => wadd (wdouble (wmul k P)) P
  end.
Definition aff_pt (a : Aff K) : option (K * K) := if ainf a then None else Some (ax a, ay a).
(** [res.mul(Fr::char()).is_zero()] (mod.rs:194-197, 223-226) *)
Definition in_order (ord : positive) (a : Aff K) : bool :=
  match wmul ord (aff_pt a) with None => true | Some _ => false end.
End Law.

(** G1PointData, G2PointData (mod.rs:85-91) *)
Definition G1Data (q : positive) : Type := Num q * Num q.
Definition G2Data (q : positive) : Type := (Num q * Num q) * (Num q * Num q).

(** From<G1Affine> (mod.rs:141-150, 202-211) *)
Definition g1_data {q} (p : Aff (Num q)) : G1Data q := if ainf p then (n0, n0) else (ax p, ay p).
(** From<G2Affine> (mod.rs:109-119, 165-175): the imaginary part first *)
Definition g2_data {q} (p : Aff (Fq2 q)) : G2Data q :=
  if ainf p then ((n0, n0), (n0, n0)) else ((c1 (ax p), c0 (ax p)), (c1 (ay p), c0 (ay p))).
(** Into<bn256::G1Affine> (mod.rs:152-163) *)
Definition g1_curve {q} (b : Num q) (d : G1Data q) : res (Aff (Num q)) :=
  let '(x, y) := d in
  let z := nis_zero x && nis_zero y in
  _ <-? rassert (is_on_curve (fq q) x y z b) ;
  Ok (mkAff x y z).
(** Into<bn256::G2Affine> (mod.rs:121-139) *)
Definition g2_curve {q} (b : Fq2 q) (d : G2Data q) : res (Aff (Fq2 q)) :=
  let x := mkFq2 (snd (fst d)) (fst (fst d)) in
  let y := mkFq2 (snd (snd d)) (fst (snd d)) in
  let z := q2is_zero x && q2is_zero y in
  _ <-? rassert (is_on_curve (fq2 q) x y z b) ;
  Ok (mkAff x y z).
Definition bn_g1 (d : G1Data bn_q) : res (Aff (Num bn_q)) := g1_curve bn_b d.
Definition bn_g2 (d : G2Data bn_q) : res (Aff (Fq2 bn_q)) := g2_curve bn_b2 d.
(** Into<bls12_381::G1Affine> (mod.rs:213-229) *)
Definition bls_g1 (d : G1Data bls_q) : res (Aff (Num bls_q)) :=
  a <-? g1_curve bls_b d ; _ <-? rassert (in_order (fq bls_q) bls_ord a) ; Ok a.
(** Into<bls12_381::G2Affine> (mod.rs:177-200) *)
Definition bls_g2 (d : G2Data bls_q) : res (Aff (Fq2 bls_q)) :=
  a <-? g2_curve bls_b2 d ; _ <-? rassert (in_order (fq2 bls_q) bls_ord a) ; Ok a.

(** ProofData (prover.rs:21-25), TruncatedVerifyingKeyData (verifier.rs:17-23) *)
Record ProofData (q : positive) := mkPD { pd_a : G1Data q; pd_b : G2Data q; pd_c : G1Data q }.
Arguments mkPD {q}. Arguments pd_a {q}. Arguments pd_b {q}. Arguments pd_c {q}.
Record VKData (q : positive) := mkVKD { vd_alpha : G1Data q; vd_beta : G2Data q; vd_gamma : G2Data q; vd_delta : G2Data q; vd_ic : list (G1Data q) }.
Arguments mkVKD {q}. Arguments vd_alpha {q}. Arguments vd_beta {q}. Arguments vd_gamma {q}. Arguments vd_delta {q}. Arguments vd_ic {q}.

(** Proof and TruncatedVerifyingKey (prover.rs:17, verifier.rs:25-32) over affine points *)
Record Proof_ (G1 G2 : Type) := mkPf { pf_a : G1; pf_b : G2; pf_c : G1 }.
Arguments mkPf {G1 G2}. Arguments pf_a {G1 G2}. Arguments pf_b {G1 G2}. Arguments pf_c {G1 G2}.
Record VK (G1 G2 : Type) := mkVK { vk_alpha : G1; vk_beta : G2; vk_gamma : G2; vk_delta : G2; vk_ic : list G1 }.
Arguments mkVK {G1 G2}. Arguments vk_alpha {G1 G2}. Arguments vk_beta {G1 G2}. Arguments vk_gamma {G1 G2}. Arguments vk_delta {G1 G2}. Arguments vk_ic {G1 G2}.

Section Data.
Context {q : positive} (g1 : G1Data q -> res (Aff (Num q))) (g2 : G2Data q -> res (Aff (Fq2 q))).
(** Proof::into_data (prover.rs:28-34, 46-52) *)
Definition pf_data (p : Proof_ (Aff (Num q)) (Aff (Fq2 q))) : ProofData q :=
  mkPD (g1_data (pf_a p)) (g2_data (pf_b p)) (g1_data (pf_c p)).
(** Proof::from_data (prover.rs:36-42, 54-60) *)
Definition pf_of_data (d : ProofData q) : res (Proof_ (Aff (Num q)) (Aff (Fq2 q))) :=
  a <-? g1 (pd_a d) ; b <-? g2 (pd_b d) ; c <-? g1 (pd_c d) ; Ok (mkPf a b c).
(** TruncatedVerifyingKey::into_data (verifier.rs:35-43, 61-69) *)
Definition vk_data (v : VK (Aff (Num q)) (Aff (Fq2 q))) : VKData q :=
  mkVKD (g1_data (vk_alpha v)) (g2_data (vk_beta v)) (g2_data (vk_gamma v)) (g2_data (vk_delta v)) (map g1_data (vk_ic v)).
(** TruncatedVerifyingKey::from_data (verifier.rs:45-57, 71-83) *)
Definition vk_of_data (d : VKData q) : res (VK (Aff (Num q)) (Aff (Fq2 q))) :=
  a <-? g1 (vd_alpha d) ; b <-? g2 (vd_beta d) ; c <-? g2 (vd_gamma d) ; e <-? g2 (vd_delta d) ;
  ic <-? rmapM g1 (vd_ic d) ; Ok (mkVK a b c e ic).
End Data.

(** Borsh encodings. [None] is an io::Error. *)
Section Borsh.
Context {q : positive}.
(** G1PointData (near.rs:13-24) *)
Definition g1_ser (d : G1Data q) : list Z := borsh_ser (fst d) ++ borsh_ser (snd d).
Definition g1_de (buf : list Z) : option (G1Data q * list Z) :=
  match borsh_de buf with None => None | Some (x, buf) =>
  match borsh_de buf with None => None | Some (y, buf) => Some ((x, y), buf) end end.
(** G2PointData (near.rs:26-43): the real part first *)
Definition g2_ser (d : G2Data q) : list Z :=
  borsh_ser (snd (fst d)) ++ borsh_ser (fst (fst d)) ++ borsh_ser (snd (snd d)) ++ borsh_ser (fst (snd d)).
Definition g2_de (buf : list Z) : option (G2Data q * list Z) :=
  match borsh_de buf with None => None | Some (x_re, buf) =>
  match borsh_de buf with None => None | Some (x_im, buf) =>
  match borsh_de buf with None => None | Some (y_re, buf) =>
  match borsh_de buf with None => None | Some (y_im, buf) => Some (((x_im, x_re), (y_im, y_re)), buf) end end end end.
(** ProofData (near.rs:45-61) *)
Definition pd_ser (d : ProofData q) : list Z := g1_ser (pd_a d) ++ g2_ser (pd_b d) ++ g1_ser (pd_c d).
Definition pd_de (buf : list Z) : option (ProofData q * list Z) :=
  match g1_de buf with None => None | Some (a, buf) =>
  match g2_de buf with None => None | Some (b, buf) =>
  match g1_de buf with None => None | Some (c, buf) => Some (mkPD a b c, buf) end end end.
(** [Vec<T>] (borsh 0.7): [len as u32] little endian, then the elements *)
Definition vec_ser {A} (ser : A -> list Z) (l : list A) : list Z :=
  le_bytes 4 (Z.of_nat (length l)) ++ concat (map ser l).
Fixpoint many_de {A} (de : list Z -> option (A * list Z)) (n : nat) (buf : list Z) : option (list A * list Z) :=
  match n with
  | O => Some ([], buf)
  | S n => match de buf with None => None | Some (a, buf) =>
           match many_de de n buf with None => None | Some (l, buf) => Some (a :: l, buf) end end
  end.
Definition vec_de {A} (de : list Z -> option (A * list Z)) (buf : list Z) : option (list A * list Z) :=
  match take_bytes 4 buf with None => None | Some (h, buf) => many_de de (Z.to_nat (le_val h)) buf end.
(** TruncatedVerifyingKeyData (near.rs:63-83) *)
Definition vd_ser (d : VKData q) : list Z :=
  g1_ser (vd_alpha d) ++ g2_ser (vd_beta d) ++ g2_ser (vd_gamma d) ++ g2_ser (vd_delta d) ++ vec_ser g1_ser (vd_ic d).
Definition vd_de (buf : list Z) : option (VKData q * list Z) :=
  match g1_de buf with None => None | Some (a, buf) =>
  match g2_de buf with None => None | Some (b, buf) =>
  match g2_de buf with None => None | Some (c, buf) =>
  match g2_de buf with None => None | Some (e, buf) =>
  match vec_de g1_de buf with None => None | Some (ic, buf) => Some (mkVKD a b c e ic, buf) end end end end end.
End Borsh.
