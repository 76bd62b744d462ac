(** Generated from SolidityClaims.v by tools/genprops.py. *)
From Verif Require Import SolidityClaims.
Open Scope Z_scope.

(** The template is eight pieces of text with seven placeholders between them, and the
    output is the pieces with the key's values in their places. *)
Theorem C64_text : exists t0 t1 t2 t3 t4 t5 t6 t7 : list Z,
  template = t0 ++ codes "<%vk_ic_length%>" ++ t1 ++ codes "<%vk_alfa1%>" ++ t2 ++ codes "<%vk_beta2%>" ++ t3 ++ codes "<%vk_gamma2%>" ++
    t4 ++ codes "<%vk_delta2%>" ++ t5 ++ codes "<%vk_ic_pts%>" ++ t6 ++ codes "<%vk_input_length%>" ++ t7 /\
  (forall t l r, In t [t0; t1; t2; t3; t4; t5; t6; t7] -> t <> l ++ codes "<%" ++ r) /\
  (forall (chk : bool) (vk : VKData bn_q), vd_ic vk <> [] -> generate_sol_data chk vk = Ok (rendered vk t0 t1 t2 t3 t4 t5 t6 t7)).
Proof. exact claim_C64_text. Qed.
Print Assumptions C64_text.

(** No placeholder is left. *)
Theorem C64_no_placeholder : forall (chk : bool) (vk : VKData bn_q) (out : list Z), generate_sol_data chk vk = Ok out ->
  forall l r, out <> l ++ codes "<%" ++ r.
Proof. exact claim_C64_no_placeholder. Qed.
Print Assumptions C64_no_placeholder.

(** A key without ic points panics with overflow checks; without them the input count
    printed is 2^64 - 1. *)
Theorem C64_empty : forall vk : VKData bn_q, vd_ic vk = [] -> generate_sol_data true vk = Panic /\
  exists out l r, generate_sol_data false vk = Ok out /\ out = l ++ codes "uint256[" ++ dec (2 ^ 64 - 1) ++ r.
Proof. exact claim_C64_empty. Qed.
Print Assumptions C64_empty.

(** The numbers are printed in decimal, without leading zeros. *)
Theorem C64_decimal : forall z, 0 <= z -> forallb (fun c => Z.leb 48 c && Z.leb c 57) (dec z) = true /\
  fold_left (fun v c => 10 * v + (c - 48)) (dec z) 0 = z /\ (forall t, dec z = 48 :: t -> t = []).
Proof. exact claim_C64_decimal. Qed.
Print Assumptions C64_decimal.

Example C64_text_case :  let vk := mkVKD (num 1, num 2) ((num 3, num 4), (num 5, num 6)) ((num 7, num 8), (num 9, num 10)) ((num 11, num 12), (num 0, num 1)) [(num 2, num 3); (num 4, num 15)] : VKData bn_q in
  vd_ic vk <> [] /\ line 1 (num 4, num 15) = codes "        vk.IC[1] = Pairing.G1Point(4, 15);" ++ [10] /\
  g2_text 3 4 5 6 = codes "[3, 4], [5, 6]" /\ Z.of_nat (length template) = 5965.
Proof. exact case_C64_text. Qed.
