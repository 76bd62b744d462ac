(** Generated from MoreClaims.v by tools/genprops.py. *)
From Verif Require Import MoreClaims.
Open Scope num_scope.

(** The affine test for zero and equality of points (native/ecc.rs:154-156). *)
Theorem C27_affine_zero : forall (p : positive), Prime p ->
 forall (d : Num p) (P Q : EPoint p), is_square (- (1) : Num p) -> ~ is_square d ->
  (e_is_zero P = true <-> P = mkE 0 1) /\ (e_eqb P Q = true <-> P = Q) /\
  (on_curve d (mkE 0 (- (1))) /\ e_is_zero (mkE (0 : Num p) (- (1))) = false).
Proof. exact claim_C27_affine_zero. Qed.
Print Assumptions C27_affine_zero.

(** What the gadget says for path signals that are not constants, and no more. *)
Theorem C84_line : forall (p : positive), Prime p ->
 forall (U : list Index) (P : PoseidonParams p) (leaf : CNum p) (sib : list (CNum p)) (path : list (CBool p)),
  In I0 U -> owned U leaf -> Forall (owned U) sib -> Forall (owned U) path ->
  Forall (fun c : CNum p => as_const c = None) path ->
  let g := c_poseidon_merkle_proof_root P leaf sib path in
  let is_line := fun s r => line_root P (ceval s leaf) (combine (map (ceval s) path) (map (ceval s) sib)) = Ok (ceval s r) in
  sound_for U g is_line /\
  (pp_ok P -> (2 <= ppt P)%nat -> complete_for U g (fun s => valued s leaf /\ Forall (valued s) sib /\ Forall (valued s) path) is_line).
Proof. exact claim_C84_line. Qed.
Print Assumptions C84_line.

(** From a true proof of depth at least one for [a], a proof of the same root for
    any other number that is not the midpoint of [a] and its sibling. *)
Theorem C84_any_leaf : forall (p : positive), Prime p ->
 forall (U : list Index) (P : PoseidonParams p) (leaf : CNum p) (sib : list (CNum p)) (path : list (CBool p))
    (lv a b root : Num p) (sv : list (Num p)) (b0 : bool) (bs : list bool),
  In I0 U -> owned U leaf -> Forall (owned U) sib -> Forall (owned U) path ->
  Forall (fun c : CNum p => as_const c = None) path -> pp_ok P -> (2 <= ppt P)%nat ->
  length bs = length sv -> poseidon_merkle_proof_root P a (b :: sv) (b0 :: bs) = Ok root -> a + b <> lv + lv ->
  complete_for U (c_poseidon_merkle_proof_root P leaf sib path)
    (fun s => valued s leaf /\ Forall (valued s) sib /\ Forall (valued s) path /\ ceval s leaf = lv /\
       map (ceval s) sib = (a + b - lv) :: sv /\
       map (ceval s) path = fdiv ((if b0 then b else a) - lv) (a + b - lv - lv) :: map nbool bs)
    (fun s r => ceval s r = root).
Proof. exact claim_C84_any_leaf. Qed.
Print Assumptions C84_any_leaf.

(** So any number is proved to be in any tree of two or more leaves: next to leaf
    [i], unless it is the midpoint of leaf [i] and its neighbour. *)
Theorem C84_any_tree : forall (p : positive), Prime p ->
 forall (U : list Index) (P : PoseidonParams p) (leaf : CNum p) (sib : list (CNum p)) (path : list (CBool p))
    (leaves : list (Num p)) (lv root : Num p) (i : nat),
  In I0 U -> owned U leaf -> Forall (owned U) sib -> Forall (owned U) path ->
  Forall (fun c : CNum p => as_const c = None) path -> length path = length sib -> pp_ok P -> (2 <= ppt P)%nat ->
  poseidon_merkle_tree_root P leaves = Ok root -> (0 < length sib)%nat -> (length leaves <= 2 ^ length sib < 2 * length leaves)%nat ->
  (i < 2 ^ length sib)%nat -> nth i leaves 0 + nth (Nat.lxor i 1) leaves 0 <> lv + lv ->
  exists sv pv : list (Num p), length sv = length sib /\ length pv = length sib /\
  complete_for U (c_poseidon_merkle_proof_root P leaf sib path)
    (fun s => valued s leaf /\ Forall (valued s) sib /\ Forall (valued s) path /\
       ceval s leaf = lv /\ map (ceval s) sib = sv /\ map (ceval s) path = pv)
    (fun s r => ceval s r = root).
Proof. exact claim_C84_any_tree. Qed.
Print Assumptions C84_any_tree.

(** With [assert] called on every path signal first, the root is the native root
    along some bits, and the leaf is bound as in C66. *)
Theorem C84_asserted : forall (p : positive), Prime p ->
 forall (U : list Index) (P : PoseidonParams p) (leaf : CNum p) (sib : list (CNum p)) (path : list (CBool p)),
  In I0 U -> owned U leaf -> Forall (owned U) sib -> Forall (owned U) path -> length path = length sib ->
  sound_for U (pmapM cb_assert path ;;; c_poseidon_merkle_proof_root P leaf sib path) (fun s r =>
    exists bs, length bs = length sib /\ ebits s path bs /\
      poseidon_merkle_proof_root P (ceval s leaf) (map (ceval s) sib) bs = Ok (ceval s r)).
Proof. exact claim_C84_asserted. Qed.
Print Assumptions C84_asserted.

(** For the library's parameters: any number, any tree. *)
Theorem C84_library : exists P : @PoseidonParams bn_r, pp_new 64 true 3 8 53 = Ok (Some P) /\
  forall (U : list Index) (leaf : CNum bn_r) (sib : list (CNum bn_r)) (path : list (CBool bn_r)) (leaves : list (Num bn_r)) (lv root : Num bn_r) (i : nat),
  In I0 U -> owned U leaf -> Forall (owned U) sib -> Forall (owned U) path ->
  Forall (fun c : CNum bn_r => as_const c = None) path -> length path = length sib ->
  poseidon_merkle_tree_root P leaves = Ok root -> (0 < length sib)%nat -> (length leaves <= 2 ^ length sib < 2 * length leaves)%nat ->
  (i < 2 ^ length sib)%nat -> nth i leaves 0 + nth (Nat.lxor i 1) leaves 0 <> lv + lv ->
  exists sv pv : list (Num bn_r), length sv = length sib /\ length pv = length sib /\
  complete_for U (c_poseidon_merkle_proof_root P leaf sib path)
    (fun s => valued s leaf /\ Forall (valued s) sib /\ Forall (valued s) path /\
       ceval s leaf = lv /\ map (ceval s) sib = sv /\ map (ceval s) path = pv)
    (fun s r => ceval s r = root).
Proof. exact claim_C84_library. Qed.
Print Assumptions C84_library.

(** [iterbit_be]: the bits of the repr from the top, as the ff crate's iterator gives them. *)
Theorem C50_iterbit_be : forall (p : positive) (a : Num p),
  iterbit_be a = bititer_be (into_repr a) /\ length (iterbit_be a) = (64 * num_limbs p)%nat /\
  (forall i, (i < 64 * num_limbs p)%nat -> nth i (iterbit_be a) false = Z.testbit (nval a) (Z.of_nat (64 * num_limbs p - 1 - i))) /\
  fold_left (fun z b => 2 * z + Z.b2z b)%Z (iterbit_be a) 0%Z = nval a.
Proof. exact claim_C50_iterbit_be. Qed.
Print Assumptions C50_iterbit_be.

(** A point: x, then y. *)
Theorem C57_point : forall p (x y : CNum p),
  sized t_point (x, (y, tt)) /\ leaves t_point (x, (y, tt)) = [x; y] /\ tsize t_point = 2%nat /\
  (forall u v : Num p, vleaves t_point (u, (v, tt)) = [u; v]) /\
  (forall U tr, exec U (s_inputize t_point (x, (y, tt))) tr (Some tt) <-> exec U (piter cinputize [x; y]) tr (Some tt)).
Proof. exact claim_C57_point. Qed.
Print Assumptions C57_point.

(** ** Cases *)
Example C50_iterbit_be_case : length (iterbit_be (num 5 : Num 101)) = 64%nat /\ skipn 60 (iterbit_be (num 5 : Num 101)) = [false; true; false; true].
Proof. exact case_C50_iterbit_be. Qed.

Example C57_point_case : vleaves (p := 73) t_point (num 3, (num 4, tt)) = [num 3; num 4].
Proof. exact case_C57_point. Qed.

(** The points (0, 1) and (0, -1) in the field with 37 elements. *)
Example C27_affine_zero_case : is_square (- (1) : Num 37) /\ ~ is_square (num 2 : Num 37) /\
  e_is_zero (mkE (0 : Num 37) 1) = true /\ e_is_zero (mkE (0 : Num 37) (- (1))) = false.
Proof. exact case_C27_affine_zero. Qed.

(** The number 3 is not in the tree of 22, 9 and 5, and has a proof of depth two. *)
Example C84_any_tree_case : let lv := num 3 in let a := num 22 in let b := num 9 : Num 37 in let s1 := num (hval (poseidon P37 [num 5; num 0])) in
  let v := fun x i => cvar (Some x) (Aux i) : CNum 37 in
  let x0 := fdiv (a - lv) (a + b - lv - lv) in ~ In lv [a; b; num 5; num 0] /\ a + b <> lv + lv /\ ~ isbit x0 /\
  demo [lv; a + b - lv; s1; x0; num 0]
    (c_poseidon_merkle_proof_root P37 (v lv 0%nat) [v (a + b - lv) 1%nat; v s1 2%nat] [v x0 3%nat; v (num 0) 4%nat])
    (fun s r => poseidon_merkle_tree_root P37 [a; b; num 5] = Ok (ceval s r)).
Proof. exact case_C84_any_tree. Qed.

(** The true proof of 22 in that tree, its path signals asserted. *)
Example C84_asserted_case : let s1 := num (hval (poseidon P37 [num 5; num 0])) in let v := fun x i => cvar (Some x) (Aux i) : CNum 37 in
  let path := [v (num 0) 3%nat; v (num 0) 4%nat] in
  demo [num 22; num 9; s1; num 0; num 0]
    (pmapM cb_assert path ;;; c_poseidon_merkle_proof_root P37 (v (num 22) 0%nat) [v (num 9) 1%nat; v s1 2%nat] path)
    (fun s r => hval (poseidon_merkle_tree_root P37 [num 22; num 9; num 5]) = nval (ceval s r)).
Proof. exact case_C84_asserted. Qed.
