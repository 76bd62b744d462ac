(** Generated from FreeClaims.v by tools/genprops.py. *)
From Verif Require Import FreeClaims.
Open Scope num_scope.

(** The application whose public values are a root and a leaf, with the path bits of
    the proof only allocated: the pairs it accepts, exactly. *)
Theorem C84_open : forall (p l : positive) (sqrt : Num p -> option (Num p)) (PP : @PoseidonParams p) (J : JubJub p l) n root leaf, params_ok sqrt PP J ->
  statement (open_ops n) sqrt PP J two_nums (proof_ty n) [root; leaf] <->
  exists sv pv : list (Num p), length sv = n /\ length pv = n /\ line_root PP leaf (combine pv sv) = Ok root.
Proof. exact claim_C84_open. Qed.
Print Assumptions C84_open.

(** So it accepts the root of any tree of depth at least one with a number that need
    not be in the tree. *)
Theorem C84_open_tree : forall (p l : positive) (sqrt : Num p -> option (Num p)) (PP : @PoseidonParams p) (J : JubJub p l) n leaves root leaf i, params_ok sqrt PP J ->
  poseidon_merkle_tree_root PP leaves = Ok root -> (0 < n)%nat -> (length leaves <= 2 ^ n < 2 * length leaves)%nat ->
  (i < 2 ^ n)%nat -> nth i leaves 0 + nth (Nat.lxor i 1) leaves 0 <> leaf + leaf ->
  statement (open_ops n) sqrt PP J two_nums (proof_ty n) [root; leaf].
Proof. exact claim_C84_open_tree. Qed.
Print Assumptions C84_open_tree.

(** With [assert] called on the path bits first: the pairs with a native proof. *)
Theorem C84_shown : forall (p l : positive) (sqrt : Num p -> option (Num p)) (PP : @PoseidonParams p) (J : JubJub p l) n root leaf, params_ok sqrt PP J ->
  statement (member_ops n) sqrt PP J two_nums (proof_ty n) [root; leaf] <->
  exists sib path, length sib = n /\ length path = n /\ poseidon_merkle_proof_root PP leaf sib path = Ok root.
Proof. exact claim_C84_shown. Qed.
Print Assumptions C84_shown.

(** Such an application shows that the leaf is one of the tree's, up to a collision of
    the hash; and every leaf of the tree has a proof. *)
Theorem C84_shown_tree : forall (p l : positive) (sqrt : Num p -> option (Num p)) (PP : @PoseidonParams p) (J : JubJub p l) n leaves root, params_ok sqrt PP J ->
  poseidon_merkle_tree_root PP leaves = Ok root -> (length leaves <= 2 ^ n < 2 * length leaves)%nat ->
  (forall leaf, statement (member_ops n) sqrt PP J two_nums (proof_ty n) [root; leaf] -> (exists i, (i < 2 ^ n)%nat /\ leaf = nth i leaves 0) \/ collision PP) /\
  (forall i, (i < 2 ^ n)%nat -> statement (member_ops n) sqrt PP J two_nums (proof_ty n) [root; nth i leaves 0]).
Proof. exact claim_C84_shown_tree. Qed.
Print Assumptions C84_shown_tree.

(** The application that shows a signature of the public message by the public key
    accepts every message for the key 0. *)
Theorem C67_zero_key_object : forall (p l : positive) (sqrt : Num p -> option (Num p)) (PP : @PoseidonParams p) (J : JubJub p l) m, params_ok sqrt PP J ->
  statement signed_ops sqrt PP J two_nums two_nums [0; m].
Proof. exact claim_C67_zero_key_object. Qed.
Print Assumptions C67_zero_key_object.

(** And it accepts every message for every key that [sign] can be called with. *)
Theorem C68_signed_object : forall (p l : positive) (sqrt : Num p -> option (Num p)) (PP : @PoseidonParams p) (J : JubJub p l) (sk : Num l) m, params_ok sqrt PP J ->
  exists A, e_mul (jd J) (jg J) sk = Ok A /\ statement signed_ops sqrt PP J two_nums two_nums [ex A; m].
Proof. exact claim_C68_signed_object. Qed.
Print Assumptions C68_signed_object.

(** The tree of 22, 9 and 5 under the library's parameters: the open application accepts
    the number 3, the other one accepts 22. *)
Example C84_open_tree_case : exists J P root, jubjub_bn sqrt_search = Ok J /\ pp_new 64 true 4 8 54 = Ok (Some P) /\ params_ok sqrt_search P J /\
  let leaves := map num [22; 9; 5]%Z in poseidon_merkle_tree_root P leaves = Ok root /\
  ~ In (num 3) (0 :: leaves) /\ statement (open_ops 2) sqrt_search P J two_nums (proof_ty 2) [root; num 3] /\
  statement (member_ops 2) sqrt_search P J two_nums (proof_ty 2) [root; num 22].
Proof. exact case_C84_open_tree. Qed.

(** The path signal of 3 next to 22 and 9. *)
Example C84_open_case : exists J P root (sv pv : list (Num bn_r)), params_ok (l := bn_l) sqrt_search P J /\ length sv = 2%nat /\ length pv = 2%nat /\ line_root P (num 3) (combine pv sv) = Ok root.
Proof. exact case_C84_open. Qed.

Example C84_shown_case : exists J P root (sib : list (Num bn_r)) path, params_ok (l := bn_l) sqrt_search P J /\ length sib = 2%nat /\ length path = 2%nat /\ poseidon_merkle_proof_root P (num 22) sib path = Ok root.
Proof. exact case_C84_shown. Qed.

Example C84_shown_tree_case : exists J P root, params_ok (p := bn_r) (l := bn_l) sqrt_search P J /\ let leaves := map num [22; 9; 5]%Z in
  poseidon_merkle_tree_root P leaves = Ok root /\ (length leaves <= 2 ^ 2 < 2 * length leaves)%nat.
Proof. exact case_C84_shown_tree. Qed.

Example C67_zero_key_object_case : exists J P, jubjub_bn sqrt_search = Ok J /\ pp_new 64 true 4 8 54 = Ok (Some P) /\ params_ok sqrt_search P J.
Proof. exact case_C67_zero_key_object. Qed.

Example C68_signed_object_case : exists J P, jubjub_bn sqrt_search = Ok J /\ pp_new 64 true 4 8 54 = Ok (Some P) /\ params_ok sqrt_search P J.
Proof. exact case_C68_signed_object. Qed.
