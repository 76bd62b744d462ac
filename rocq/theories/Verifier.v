(** Model of helpers/groth16/verifier.rs: the verification equation and the
    compressed form of the verifying key.  The pairing library is a parameter: the
    record [Engine] holds exactly the operations the code calls.  Affine, prepared
    and projective forms of a point are the same element here; [into_projective],
    [into_affine] and [prepare] are the identity. *)

From Verif Require Export PointData Group.
Open Scope Z_scope.

(** pairing::Engine as used by verifier.rs (8, 201-235) *)
Record Engine := mkEngine {
  eG1 : Type; eG2 : Type; eFk : Type;
  e1add : eG1 -> eG1 -> eG1;
  e1zero : eG1;
  e1neg : eG1 -> eG1;
  e1mul : eG1 -> Z -> eG1;
  e_miller : list (eG1 * eG2) -> eFk;
  e_final : eFk -> option eFk;
  ek_one : eFk;
  ek_eqb : eFk -> eFk -> bool }.

(** verify (verifier.rs:201-235).  [None] is Err(MalformedVerifyingKey).  [ic[0]]
    is an index and may panic.  [into_repr] is the integer value of the input. *)
Definition verify (E : Engine) {r : positive} (tvk : VK (eG1 E) (eG2 E)) (proof : Proof_ (eG1 E) (eG2 E))
    (inputs : list (Num r)) : res (option bool) :=
  if negb (Nat.eqb (length inputs + 1) (length (vk_ic tvk))) then Ok None
  else
    ic0 <-? unwrap (nth_error (vk_ic tvk) 0) ;
    let acc := fold_left (fun acc ib => e1add E acc (e1mul E (snd ib) (nval (fst ib)))) (combine inputs (skipn 1 (vk_ic tvk))) ic0 in
    let neg_a := e1neg E (pf_a proof) in
    f <-? unwrap (e_final E (e_miller E [(neg_a, pf_b proof); (vk_alpha tvk, vk_beta tvk); (acc, vk_gamma tvk); (pf_c proof, vk_delta tvk)])) ;
    Ok (Some (ek_eqb E f (ek_one E))).

(** The point encodings of the pairing crate used by write and read: sizes of the
    compressed forms, [into_compressed], [into_affine], [is_zero]. *)
Record PointCodec (G : Type) := mkPC { pc_size : nat; pc_compress : G -> list Z; pc_affine : list Z -> option G; pc_is_zero : G -> bool }.
Arguments mkPC {G}. Arguments pc_size {G}. Arguments pc_compress {G}. Arguments pc_affine {G}. Arguments pc_is_zero {G}.

Section Compressed.
Context {G1 G2 : Type} (k1 : PointCodec G1) (k2 : PointCodec G2).

(** write (verifier.rs:87-96), to a writer that takes every byte *)
Definition tvk_write (vk : VK G1 G2) : list Z :=
  pc_compress k1 (vk_alpha vk) ++ pc_compress k2 (vk_beta vk) ++ pc_compress k2 (vk_gamma vk) ++
  pc_compress k2 (vk_delta vk) ++ concat (map (pc_compress k1) (vk_ic vk)).

(** one read_exact and the decoding after it (verifier.rs:102-115); [None] is an error *)
Definition decode {G} (k : PointCodec G) (chunk : list Z) : option G :=
  match pc_affine k chunk with
  | Some e => if pc_is_zero k e then None else Some e
  | None => None
  end.
Definition read_point {G} (k : PointCodec G) (buf : list Z) : option (G * list Z) :=
  match take_bytes (pc_size k) buf with
  | Some (chunk, rest) => option_map (fun e => (e, rest)) (decode k chunk)
  | None => None
  end.
(** the loop (verifier.rs:162-179): it stops at the first failing read_exact,
    that is when fewer bytes than a point are left; a bad point is an error.
    [fuel] bounds the number of iterations. *)
Fixpoint read_ic (fuel : nat) (buf : list Z) : option (list G1) :=
  match fuel with
  | O => Some []
  | S f =>
    match take_bytes (pc_size k1) buf with
    | None => Some []
    | Some (chunk, rest) =>
      match decode k1 chunk with
      | None => None
      | Some g => option_map (cons g) (read_ic f rest)
      end
    end
  end.
(** read (verifier.rs:98-188) from a byte string; every byte string of length [n]
    holds at most [n] points, so [S n] iterations are enough *)
Definition tvk_read (buf : list Z) : option (VK G1 G2) :=
  match read_point k1 buf with
  | None => None
  | Some (alpha, b1) =>
    match read_point k2 b1 with
    | None => None
    | Some (beta, b2) =>
      match read_point k2 b2 with
      | None => None
      | Some (gamma, b3) =>
        match read_point k2 b3 with
        | None => None
        | Some (delta, b4) => option_map (mkVK alpha beta gamma delta) (read_ic (S (length b4)) b4)
        end
      end
    end
  end.
End Compressed.

(** truncate_verifying_key (verifier.rs:191-199): bellman's key also has beta_g1 and delta_g1 *)
Record BellmanVK (G1 G2 : Type) := mkBVK {
  bv_alpha_g1 : G1; bv_beta_g1 : G1; bv_beta_g2 : G2; bv_gamma_g2 : G2; bv_delta_g1 : G1; bv_delta_g2 : G2; bv_ic : list G1 }.
Arguments mkBVK {G1 G2}. Arguments bv_alpha_g1 {G1 G2}. Arguments bv_beta_g2 {G1 G2}. Arguments bv_gamma_g2 {G1 G2}.
Arguments bv_delta_g2 {G1 G2}. Arguments bv_ic {G1 G2}.
Definition truncate_verifying_key {G1 G2} (vk : BellmanVK G1 G2) : VK G1 G2 :=
  mkVK (bv_alpha_g1 vk) (bv_beta_g2 vk) (bv_gamma_g2 vk) (bv_delta_g2 vk) (bv_ic vk).
