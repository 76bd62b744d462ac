(** The two JubJub parameter sets: src/native/bn256.rs:11-50, bls12_381.rs:11-50. Model only. *)

From Verif Require Export Ecc NumCodec.
Open Scope num_scope.

(** Order of the scalar field of BN256 ([bellman::pairing::bn256::Fr]) and the
    modulus of [Fs] (bn256.rs:13). *)
Definition bn_r : positive := 21888242871839275222246405745257275088548364400416034343698204186575808495617.
Definition bn_l : positive := 2736030358979909402780800718157159386076813972158567259200215660948447373041.
(** Order of the scalar field of BLS12-381 and the modulus of [Fs] (bls12_381.rs:13). *)
Definition bls_r : positive := 52435875175126190479447740508185965837690552500527637822603658699938581184513.
Definition bls_l : positive := 6554484396890773809930967563523245729705921265872317281365359162392183254199.

(** src/constants.rs:2 b"edwards_g" *)
Definition SEED_EDWARDS_G : list Z := [101; 100; 119; 97; 114; 100; 115; 95; 103]%Z.

(** [new()] (bn256.rs:27-50, bls12_381.rs:27-50): edwards_d = -num!(dn) / num!(dd),
    montgomery_u = num!(u); [num!] of an integer literal is From<i32>. *)
Definition jubjub_new {p} (l : positive) (sqrt : Num p -> option (Num p)) (dn dd u : Z) : res (JubJub p l) :=
  a <-? from_i32 true dn ; b <-? from_i32 true dd ; d <-? ndiv (- a) b ;
  two <-? from_i32 true 2 ; ma <-? ndiv (two * (1 - d)) (1 + d) ;
  four <-? from_i32 true 4 ; mb <-? ndiv (- four) (1 + d) ;
  mu <-? from_i32 true u ;
  t <-? from_seed SEED_EDWARDS_G ;
  g <-? from_scalar_raw sqrt t ma mb mu ;
  Ok (mkJ g d ma mb mu).
(** bn256.rs:28,34 and bls12_381.rs:28,34 *)
Definition jubjub_bn sqrt : res (JubJub bn_r bn_l) := jubjub_new bn_l sqrt 168696 168700 337401.
Definition jubjub_bls sqrt : res (JubJub bls_r bls_l) := jubjub_new bls_l sqrt 10240 10241 81929.
