(** Generated from VerifierClaims.v by tools/genprops.py. *)
From Verif Require Import VerifierClaims.
Open Scope Z_scope.

(** [verify] is Ok true exactly when e(A, B) = e(alpha, beta) e(ic0 + sum x_i ic_i, gamma) e(C, delta),
    Ok false when the lengths match and it does not, an error exactly when they do not
    match; it never panics. *)
Theorem C53_verify : forall (E : Engine) ok1 ok2 okk mul inv e, is_pairing E ok1 ok2 okk mul inv e ->
  forall (r : positive) (vk : VK (eG1 E) (eG2 E)) (pf : Proof_ (eG1 E) (eG2 E)) (inputs : list (Num r)),
  key_ok ok1 ok2 vk -> proof_ok ok1 ok2 pf ->
  let acc := match vk_ic vk with
    | [] => e1zero E
    | ic0 :: ics => fold_right (e1add E) (e1zero E) (ic0 :: map (fun xb => zmul (e1add E) (e1zero E) (e1neg E) (nval (fst xb)) (snd xb)) (combine inputs ics))
    end in
  let equation := e (pf_a pf) (pf_b pf) = mul (e (vk_alpha vk) (vk_beta vk)) (mul (e acc (vk_gamma vk)) (e (pf_c pf) (vk_delta vk))) in
  (verify E vk pf inputs = Ok None <-> (length inputs + 1)%nat <> length (vk_ic vk)) /\
  ((length inputs + 1)%nat = length (vk_ic vk) -> 
    (verify E vk pf inputs = Ok (Some true) <-> equation) /\ (verify E vk pf inputs = Ok (Some false) <-> ~ equation)).
Proof. exact claim_C53_verify. Qed.
Print Assumptions C53_verify.

(** By additivity the middle factor is e(ic0, gamma) times the product of the e(ic_i, gamma)^x_i. *)
Theorem C53_expanded : forall (E : Engine) ok1 ok2 okk mul inv e, is_pairing E ok1 ok2 okk mul inv e ->
  forall (r : positive) (vk : VK (eG1 E) (eG2 E)) (pf : Proof_ (eG1 E) (eG2 E)) (inputs : list (Num r)) ic0 ics,
  key_ok ok1 ok2 vk -> proof_ok ok1 ok2 pf -> vk_ic vk = ic0 :: ics -> length inputs = length ics ->
  (verify E vk pf inputs = Ok (Some true) <->
   e (pf_a pf) (pf_b pf) = mul (e (vk_alpha vk) (vk_beta vk)) (mul (mul (e ic0 (vk_gamma vk))
     (fold_right mul (ek_one E) (map (fun xb => zmul mul (ek_one E) inv (nval (fst xb)) (e (snd xb) (vk_gamma vk))) (combine inputs ics))))
     (e (pf_c pf) (vk_delta vk)))).
Proof. exact claim_C53_expanded. Qed.
Print Assumptions C53_expanded.

(** If the final exponentiation gives nothing, [verify] panics. *)
Theorem C53_panic : forall (E : Engine) (r : positive) (vk : VK (eG1 E) (eG2 E)) (pf : Proof_ (eG1 E) (eG2 E)) (inputs : list (Num r)),
  (forall f, e_final E f = None) -> (length inputs + 1)%nat = length (vk_ic vk) -> verify E vk pf inputs = Panic.
Proof. exact claim_C53_panic. Qed.
Print Assumptions C53_panic.

Example C53_verify_case :  let vk := mkVK (num 2 : eG1 toy_engine) (num 3 : eG2 toy_engine) (num 5 : eG2 toy_engine) (num 4 : eG2 toy_engine) [num 1; num 6] in
  let inputs := [num 10 : Num 11] in
  key_ok (fun _ => True) (fun _ => True) vk /\
  verify toy_engine vk (mkPf (num 3 : eG1 toy_engine) (num 1 : eG2 toy_engine) (num 1 : eG1 toy_engine)) inputs = Ok (Some false) /\
  verify toy_engine vk (mkPf (num 1 : eG1 toy_engine) (num 1 : eG2 toy_engine) (num 3 : eG1 toy_engine)) inputs = Ok (Some true) /\
  verify toy_engine vk (mkPf (num 1 : eG1 toy_engine) (num 1 : eG2 toy_engine) (num 3 : eG1 toy_engine)) ([] : list (Num 11)) = Ok None.
Proof. exact case_C53_verify. Qed.

(** [read] gives back every key without points at infinity, and so it does when fewer
    bytes than a point follow; it rejects every key with a point at infinity. *)
Theorem C55_read_write : forall (G1 G2 : Type) (k1 : PointCodec G1) (k2 : PointCodec G2) (vk : VK G1 G2) (tail : list Z),
  codec_ok k1 -> codec_ok k2 -> (length tail < pc_size k1)%nat ->
  (finite_key k1 k2 vk -> tvk_read k1 k2 (tvk_write k1 k2 vk) = Some vk /\ tvk_read k1 k2 (tvk_write k1 k2 vk ++ tail) = Some vk) /\
  (~ finite_key k1 k2 vk -> tvk_read k1 k2 (tvk_write k1 k2 vk) = None /\ tvk_read k1 k2 (tvk_write k1 k2 vk ++ tail) = None).
Proof. exact claim_C55_read_write. Qed.
Print Assumptions C55_read_write.

(** Whatever is read is a key without points at infinity, written, and fewer bytes than
    a point (if decoding points is strict). *)
Theorem C55_read_exact : forall (G1 G2 : Type) (k1 : PointCodec G1) (k2 : PointCodec G2) (buf : list Z) (vk : VK G1 G2),
  (0 < pc_size k1)%nat -> codec_strict k1 -> codec_strict k2 -> tvk_read k1 k2 buf = Some vk ->
  finite_key k1 k2 vk /\ exists tail, buf = tvk_write k1 k2 vk ++ tail /\ (length tail < pc_size k1)%nat.
Proof. exact claim_C55_read_exact. Qed.
Print Assumptions C55_read_exact.

(** Less than the four leading points is an error. *)
Theorem C55_short : forall (G1 G2 : Type) (k1 : PointCodec G1) (k2 : PointCodec G2) (buf : list Z),
  (length buf < pc_size k1 + 3 * pc_size k2)%nat -> tvk_read k1 k2 buf = None.
Proof. exact claim_C55_short. Qed.
Print Assumptions C55_short.

(** The key is cut down field by field. *)
Theorem C55_truncate : forall (G1 G2 : Type) (vk : BellmanVK G1 G2),
  let t := truncate_verifying_key vk in vk_alpha t = bv_alpha_g1 vk /\ vk_beta t = bv_beta_g2 vk /\ vk_gamma t = bv_gamma_g2 vk /\
  vk_delta t = bv_delta_g2 vk /\ vk_ic t = bv_ic vk.
Proof. exact claim_C55_truncate. Qed.
Print Assumptions C55_truncate.

Example C55_read_write_case :  codec_ok (toy_codec 1) /\ codec_ok (toy_codec 2) /\ codec_strict (toy_codec 1) /\ codec_strict (toy_codec 2) /\
  let vk := mkVK (num 1) (num 2) (num 3) (num 4) [num 5; num 6] in
  finite_key (toy_codec 2) (toy_codec 1) vk /\ tvk_write (toy_codec 2) (toy_codec 1) vk = [1; 0; 2; 3; 4; 5; 0; 6; 0].
Proof. exact case_C55_read_write. Qed.

(** A collected SizedVec has the declared length; anything else panics. *)
Theorem C58_from_iter : forall (T : Type) (L : nat) (items : list T),
  (length items = L -> sv_from_iter L items = Ok items) /\ (length items <> L -> sv_from_iter L items = Panic) /\
  (forall v, sv_from_iter L items = Ok v -> length v = L).
Proof. exact claim_C58_from_iter. Qed.
Print Assumptions C58_from_iter.

(** Collecting options: all present gives the vector, one missing panics. *)
Theorem C58_collect_option : forall (T : Type) (L : nat) (l : list (option T)), length l = L ->
  match sv_collect_option L l with
  | Ok (Some v) => l = map Some v
  | Ok None => False
  | Panic => In None l
  end.
Proof. exact claim_C58_collect_option. Qed.
Print Assumptions C58_collect_option.

(** Deserializing does not look at the declared length: for every format and every
    stored vector the result is that vector. *)
Theorem C58_deserialize_unchecked : forall (T S : Type) (L : nat) (ser : list T -> S) (de : S -> option (list T)) (v : list T),
  de (ser v) = Some v -> sv_deserialize L de (sv_serialize L ser v) = Some v.
Proof. exact claim_C58_deserialize_unchecked. Qed.
Print Assumptions C58_deserialize_unchecked.

Theorem C58_deserialize_refuted : exists (T S : Type) (L : nat) (de : S -> option (list T)) (s : S) (v : list T),
  sv_deserialize L de s = Some v /\ length v <> L.
Proof. exact claim_C58_deserialize_refuted. Qed.
Print Assumptions C58_deserialize_refuted.

Example C58_from_iter_case : sv_from_iter 2 [5; 6] = Ok [5; 6] /\ sv_from_iter 3 [5; 6] = Panic /\ sv_collect_option 2 [Some 5; None] = Panic.
Proof. exact case_C58_from_iter. Qed.
