(** Circuits as straight-line sequences of library operations. A circuit of the
    library is a Rust function; this file models one as the list of the
    library calls it makes, on a file of registers that holds every circuit
    number obtained so far. Model only. *)

From Verif Require Export CEcc.

Section Ops.
Context {p l : positive}.
Notation F := (Num p).
(** The parameters the gadgets take. *)
Context (sqrt : F -> option F) (PP : @PoseidonParams p) (J : JubJub p l).

(** Arguments are register numbers; a point is a pair of them; [w] is the
    number of a witness value. *)
Inductive op :=
(* circuit/num.rs *)
| oConst (k : F) | oAlloc (w : nat) | oInputize (a : nat)
| oAdd (a b : nat) | oAddCap (a b : nat) | oAddRv (a b : nat) | oSub (a b : nat) | oNeg (a : nat)
| oAddNum (a : nat) (k : F) | oSubNum (a : nat) (k : F) | oNumSub (k : F) (a : nat)
| oMulNum (a : nat) (k : F) | oDivNum (a : nat) (k : F)
| oMul (a b : nat) | oSquare (a : nat) | oDiv (a b : nat)
| oAssertConst (a : nat) (k : F) | oAssertZero (a : nat) | oAssertEq (a b : nat)
| oAssertNonzero (a : nat) | oAssertBit (a : nat)
| oIsZero (a : nat) | oIsEq (a b : nat) | oSwitch (a bit b : nat)
(* circuit/bool.rs *)
| oBConst (b : bool) | oBAlloc (w : nat) | oBAssert (a : nat) | oBAssertConst (a : nat) (b : bool)
(* circuit/bitify.rs, circuit/mux.rs *)
| oIntoBits (a limit : nat) | oIntoBitsStrict (a : nat) | oFromBits (bs : list nat)
| oCompConstant (bs : list nat) (ct : F) | oMux3 (bs : list nat) (table : list (list F))
(* circuit/poseidon.rs *)
| oPoseidon (ins : list nat) | oPoseidonSalt (ins : list nat) (salt : F)
| oMerkleProof (leaf : nat) (sibling path : list nat) | oMerkleTree (leaf : list nat)
(* circuit/ecc.rs *)
| oPSwitch (P : nat * nat) (bit : nat) (Q : nat * nat)
| oEDouble (P : nat * nat) | oECofactor (P : nat * nat) | oEAdd (P Q : nat * nat)
| oEInCurve (P : nat * nat) | oEInSubgroup (P : nat * nat) | oEDecompress (x : nat)
| oEIntoMont (P : nat * nat) | oMDouble (P : nat * nat) | oMAdd (P Q : nat * nat) | oMIntoEdwards (P : nat * nat)
| oEMul (P : nat * nat) (bs : list nat) | oEFromScalar (t : nat)
(* circuit/eddsaposeidon.rs *)
| oEddsaVerify (s r a m : nat).

Definition reg (R : list (CNum p)) (i : nat) : prog p (CNum p) := plift (unwrap (nth_error R i)).
Definition regs (R : list (CNum p)) (is : list nat) : prog p (list (CNum p)) := pmapM (reg R) is.
Definition rpt (R : list (CNum p)) (P : nat * nat) : prog p (CPoint p) :=
  x <-- reg R (fst P) ;; y <-- reg R (snd P) ;; Ret (mkP x y).
Definition r1 (m : prog p (CNum p)) : prog p (list (CNum p)) := c <-- m ;; Ret [c].
Definition r0 (m : prog p unit) : prog p (list (CNum p)) := _ <-- m ;; Ret [].
Definition rP (m : prog p (CPoint p)) : prog p (list (CNum p)) := P <-- m ;; Ret [px P; py P].
Definition isconst_b (c : CNum p) : bool := match as_const c with Some _ => true | None => false end.

(** One call: the circuit numbers it returns. With [g] the calls that compute
    a hint from an argument (subgroup_decompress, assert_in_subgroup,
    from_scalar, and the signature gadget through them) stop on a constant
    argument; without [g] this is the library. *)
Definition step (g : bool) (wit : nat -> option F) (R : list (CNum p)) (o : op) : prog p (list (CNum p)) :=
  match o with
  | oConst k => Ret [cconst k]
  | oAlloc w => r1 (calloc (wit w))
  | oInputize a => a <-- reg R a ;; r0 (cinputize a)
  | oAdd a b => a <-- reg R a ;; b <-- reg R b ;; Ret [cadd a b]
  | oAddCap a b => a <-- reg R a ;; b <-- reg R b ;; Ret [cadd_cap a b]
  | oAddRv a b => a <-- reg R a ;; b <-- reg R b ;; Ret [cadd_rv a b]
  | oSub a b => a <-- reg R a ;; b <-- reg R b ;; Ret [csub a b]
  | oNeg a => a <-- reg R a ;; Ret [cneg a]
  | oAddNum a k => a <-- reg R a ;; Ret [cadd_num a k]
  | oSubNum a k => a <-- reg R a ;; Ret [csub_num a k]
  | oNumSub k a => a <-- reg R a ;; Ret [num_csub k a]
  | oMulNum a k => a <-- reg R a ;; Ret [cmul_num a k]
  | oDivNum a k => a <-- reg R a ;; r1 (plift (cdiv_num a k))
  | oMul a b => a <-- reg R a ;; b <-- reg R b ;; r1 (cmul a b)
  | oSquare a => a <-- reg R a ;; r1 (csquare a)
  | oDiv a b => a <-- reg R a ;; b <-- reg R b ;; r1 (cdiv a b)
  | oAssertConst a k => a <-- reg R a ;; r0 (cassert_const a k)
  | oAssertZero a => a <-- reg R a ;; r0 (cassert_zero a)
  | oAssertEq a b => a <-- reg R a ;; b <-- reg R b ;; r0 (cassert_eq a b)
  | oAssertNonzero a => a <-- reg R a ;; r0 (cassert_nonzero a)
  | oAssertBit a => a <-- reg R a ;; r0 (cassert_bit a)
  | oIsZero a => a <-- reg R a ;; r1 (cis_zero a)
  | oIsEq a b => a <-- reg R a ;; b <-- reg R b ;; r1 (cis_eq a b)
  | oSwitch a bit b => a <-- reg R a ;; bit <-- reg R bit ;; b <-- reg R b ;; r1 (cswitch a bit b)
  | oBConst b => Ret [cbconst b]
  | oBAlloc w => r1 (cballoc (option_map (fun v => negb (nis_zero v)) (wit w)))
  | oBAssert a => a <-- reg R a ;; r0 (cb_assert a)
  | oBAssertConst a b => a <-- reg R a ;; r0 (cb_assert_const a b)
  | oIntoBits a n => a <-- reg R a ;; c_into_bits_le a n
  | oIntoBitsStrict a => a <-- reg R a ;; c_into_bits_le_strict a
  | oFromBits bs => bs <-- regs R bs ;; r1 (plift (c_from_bits_le bs))
  | oCompConstant bs ct => bs <-- regs R bs ;; r1 (c_comp_constant bs ct)
  | oMux3 bs t => bs <-- regs R bs ;; c_mux3 bs t
  | oPoseidon ins => ins <-- regs R ins ;; r1 (c_poseidon PP ins)
  | oPoseidonSalt ins salt => ins <-- regs R ins ;; r1 (c_poseidon_with_salt PP ins salt)
  | oMerkleProof leaf sib path =>
      leaf <-- reg R leaf ;; sib <-- regs R sib ;; path <-- regs R path ;;
      r1 (c_poseidon_merkle_proof_root PP leaf sib path)
  | oMerkleTree leaf => leaf <-- regs R leaf ;; r1 (c_poseidon_merkle_tree_root PP leaf)
  | oPSwitch P bit Q => P <-- rpt R P ;; bit <-- reg R bit ;; Q <-- rpt R Q ;; rP (cp_switch P bit Q)
  | oEDouble P => P <-- rpt R P ;; rP (ce_double (jd J) P)
  | oECofactor P => P <-- rpt R P ;; rP (ce_mul_by_cofactor (jd J) P)
  | oEAdd P Q => P <-- rpt R P ;; Q <-- rpt R Q ;; rP (ce_add (jd J) P Q)
  | oEInCurve P => P <-- rpt R P ;; r0 (ce_assert_in_curve (jd J) P)
  | oEInSubgroup P =>
      P <-- rpt R P ;; passert (negb g || negb (isconst_b (px P)) || negb (isconst_b (py P))) ;;;
      r0 (ce_assert_in_subgroup l (jd J) P)
  | oEDecompress x =>
      x <-- reg R x ;; passert (negb g || negb (isconst_b x)) ;;; rP (ce_subgroup_decompress sqrt J x)
  | oEIntoMont P => P <-- rpt R P ;; rP (ce_into_montgomery P)
  | oMDouble P => P <-- rpt R P ;; rP (cm_double (ja J) (jb J) P)
  | oMAdd P Q => P <-- rpt R P ;; Q <-- rpt R Q ;; rP (cm_add (ja J) (jb J) P Q)
  | oMIntoEdwards P => P <-- rpt R P ;; rP (cm_into_edwards P)
  | oEMul P bs => P <-- rpt R P ;; bs <-- regs R bs ;; rP (ce_mul J P bs)
  | oEFromScalar t =>
      t <-- reg R t ;; passert (negb g || negb (isconst_b t)) ;;; rP (ce_from_scalar sqrt J t)
  | oEddsaVerify s r a m =>
      s <-- reg R s ;; r <-- reg R r ;; a <-- reg R a ;; m <-- reg R m ;;
      passert (negb g || (negb (isconst_b r) && negb (isconst_b a))) ;;;
      r1 (c_eddsaposeidon_verify sqrt PP J s r a m)
  end.

(** A circuit; the registers at the end hold every circuit number it got. *)
Fixpoint circuit (g : bool) (wit : nat -> option F) (ops : list op) (R : list (CNum p)) : prog p (list (CNum p)) :=
  match ops with
  | [] => Ret R
  | o :: ops' => r <-- step g wit R o ;; circuit g wit ops' (R ++ r)
  end.
End Ops.
