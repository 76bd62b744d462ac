(** Native EdDSA over Poseidon: src/native/eddsaposeidon.rs. Model only. *)

From Verif Require Export Poseidon NumCodec Ecc.
Open Scope num_scope.

(** src/constants.rs:3 b"eddsaposeidon" *)
Definition SEED_EDDSA_POSEIDON : list Z := [101; 100; 100; 115; 97; 112; 111; 115; 101; 105; 100; 111; 110]%Z.

Section Eddsa.
Context {p l : positive}.
Notation F := (Num p).
Notation Fs := (Num l).

(** hash_r (eddsaposeidon.rs:11-16) *)
Definition hash_r (sk : Fs) (m : F) : res Fs :=
  b1 <-? into_binary_be sk ;
  b2 <-? into_binary_be m ;
  from_binary_be (blake2s 32 PERSONALIZATION (b1 ++ b2)).
(** hash_ram (eddsaposeidon.rs:18-25) *)
Definition hash_ram (P : @PoseidonParams p) (r a m : F) : res F :=
  salt <-? from_seed SEED_EDDSA_POSEIDON ;
  poseidon_with_salt P [r; a; m] salt.

(** eddsaposeidon_sign (27-39) after the nonce [rho] is drawn, and
    eddsaposeidon_verify (41-66), with the hash of (r, a, m) as an argument. *)
Definition sign_with (hram : F -> F -> F -> res F) (J : JubJub p l) (rho sk : Fs) (m : F) : res (Fs * F) :=
  pr <-? e_mul (jd J) (jg J) rho ;
  let r_x := ex pr in
  pa <-? e_mul (jd J) (jg J) sk ;
  let a_x := ex pa in
  h <-? hram r_x a_x m ;
  h <-? into_other l h ;
  Ok (rho + h * sk, r_x).
Definition verify_with (hram : F -> F -> F -> res F) (sqrt : F -> option F) (J : JubJub p l) (s : Fs) (r a m : F) : res bool :=
  oa <-? subgroup_decompress sqrt l (jd J) a ;
  match oa with
  | None => Ok false
  | Some p_a =>
      or <-? subgroup_decompress sqrt l (jd J) r ;
      match or with
      | None => Ok false
      | Some p_r =>
          h <-? hram r a m ;
          h <-? into_other l h ;
          ha <-? e_mul (jd J) p_a h ;
          sb <-? e_mul (jd J) (jg J) s ;
          ha_plus_r <-? e_add (jd J) ha p_r ;
          Ok (e_eqb sb ha_plus_r)
      end
  end.
Definition eddsaposeidon_sign (P : @PoseidonParams p) (J : JubJub p l) (sk : Fs) (m : F) : res (Fs * F) :=
  rho <-? hash_r sk m ;
  sign_with (hash_ram P) J rho sk m.
Definition eddsaposeidon_verify (P : @PoseidonParams p) := verify_with (hash_ram P).
End Eddsa.
