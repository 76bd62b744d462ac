(** Generated from BlsClaims.v by tools/genprops.py. *)
From Verif Require Import BlsClaims.
Open Scope Z_scope.

Theorem C77_bls_subgroup :  (forall d d' a a', bls_g1 d = Ok a -> bls_g1 d' = Ok a' ->
     Pos.iter (wadd (fq bls_q) (aff_pt a)) None bls_ord = None /\
     (exists e s, bls_g1 e = Ok s /\ aff_pt s = wadd (fq bls_q) (aff_pt a) (aff_pt a')) /\
     (exists e s, bls_g1 e = Ok s /\ aff_pt s = wneg (fq bls_q) (aff_pt a))) /\
  (forall d d' a a', bls_g2 d = Ok a -> bls_g2 d' = Ok a' ->
     Pos.iter (wadd (fq2 bls_q) (aff_pt a)) None bls_ord = None /\
     (exists e s, bls_g2 e = Ok s /\ aff_pt s = wadd (fq2 bls_q) (aff_pt a) (aff_pt a')) /\
     (exists e s, bls_g2 e = Ok s /\ aff_pt s = wneg (fq2 bls_q) (aff_pt a))).
Proof. exact claim_C77_bls_subgroup. Qed.
Print Assumptions C77_bls_subgroup.

(** The generator of the first group is accepted; the point (0, 2) of order three is not. *)
Example C77_bls_subgroup_case : bls_g1 (num bls_gx, num bls_gy) = Ok (mkAff (num bls_gx) (num bls_gy) false) /\
  nmul (num 2) (num 2) = nadd (nmul (nmul (num 0) (num 0)) (num 0)) (num 4 : Num bls_q) /\ bls_g1 (num 0, num 2) = Panic.
Proof. exact case_C77_bls_subgroup. Qed.

Theorem C77_order : bn_ord = bn_r /\ bls_ord = bls_r /\ Prime bn_ord /\ Prime bls_ord /\
  (exists a, bls_g1 (num 3685416753713387016781088315183077757961620795782546409894578378688607592378376318836054947676345821548104185464507,
    num 1339506544944476473020471379941921221584933875938349620426543736416511423956333506472724655353366534992391756441569) = Ok a /\ aff_pt a = bls_generator) /\
  forall k, Pos.iter (wadd (fq bls_q) bls_generator) None k = None <-> (Zpos bls_ord | Zpos k).
Proof. exact claim_C77_order. Qed.
Print Assumptions C77_order.

Example C77_order_case : bls_generator <> None /\ Pos.iter (wadd (fq bls_q) bls_generator) None 7 <> None.
Proof. exact case_C77_order. Qed.
