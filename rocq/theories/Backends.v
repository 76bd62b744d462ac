(** The back ends: TestCS (src/core/cs.rs) and Groth16CS
    (src/helpers/groth16/mod.rs) over bellman.  Model only, no proofs.

    A back end runs a program, [None] standing for a panic. RefCells are state,
    the annotation closures of bellman (names of variables and constraints) are
    dropped, and usize is nat. *)

From Verif Require Export Circuit.

Section Backends.
Context {p : positive}.
Notation F := (Num p).

(** TestCS (cs.rs:25-31). [naux] is never written and is dropped. *)
Record testcs := mkT { t_ninputs : nat; t_ncons : nat; t_variables : list (Index * F) }.
(** TestCS::new (cs.rs:34-42) *)
Definition testcs_new : testcs := mkT 1 0 [].
(** num_constraints (cs.rs:44-46) *)
Definition num_constraints (c : testcs) : nat := t_ncons c.
(** HashMap::insert, the last binding of a key on top. *)
Definition hinsert (i : Index) (v : F) (m : list (Index * F)) : list (Index * F) := (i, v) :: m.
(** alloc (cs.rs:58-67). It counts in [ninputs] and returns an Input. *)
Definition t_alloc (v : option F) (c : testcs) : Index * testcs :=
  let index := Input (t_ninputs c) in
  (index, mkT (S (t_ninputs c)) (t_ncons c)
            (match v with Some x => hinsert index x (t_variables c) | None => t_variables c end)).
(** alloc_input (cs.rs:68-77) *)
Definition t_alloc_input (v : option F) (c : testcs) : Index * testcs :=
  let index := Input (t_ninputs c) in
  (index, mkT (S (t_ninputs c)) (t_ncons c)
            (match v with Some x => hinsert index x (t_variables c) | None => t_variables c end)).
(** enforce (cs.rs:79-87): the assertion is made only if all three values are
    known. *)
Definition t_enforce (a b c : CNum p) (s : testcs) : res testcs :=
  let s' := mkT (t_ninputs s) (S (t_ncons s)) (t_variables s) in
  match cvalue a, cvalue b, cvalue c with
  | Some a, Some b, Some c => if neqb (nmul a b) c then Ok s' else Panic
  | _, _, _ => Ok s'
  end.
Fixpoint t_run {A} (m : prog p A) (s : testcs) : res (testcs * A) :=
  match m with
  | Ret a => Ok (s, a)
  | PPanic => Panic
  | Alloc v k => let (i, s) := t_alloc v s in t_run (k i) s
  | AllocInput v k => let (i, s) := t_alloc_input v s in t_run (k i) s
  | Enforce a b c k => match t_enforce a b c s with Ok s => t_run k s | Panic => Panic end
  end.

(** bellman's constraint systems, as far as Groth16CS uses them (not in /repo,
    from bellman_ce's groth16 module). A linear combination is handed over as a
    list of terms. The key generator's assembly numbers the variables and does
    not call the value closures; the prover's calls them and fails with
    AssignmentMissing if there is no value. Both allocate Input 0, the constant
    one, before the circuit is synthesized. *)
Definition constraint := (lcT p * lcT p * lcT p)%type.
Record keyasm := mkK { k_inputs : nat; k_aux : nat; k_cons : list constraint }.
Definition keyasm_new : keyasm := mkK 1 0 [].
Record proveasm := mkP { p_inputs : list F; p_aux : list F; p_cons : list constraint }.
Definition proveasm_new : proveasm := mkP [n1] [] [].

(** into_bellman_lc (groth16/mod.rs:323-331): the terms in order. The transmutes
    (mod.rs:308, 318, 330) identify bellman's Variable and LinearCombination
    with Index and the list of terms. *)
Definition into_bellman_lc (c : CNum p) : lcT p := clc c.
Definition b_cons (a b c : CNum p) : constraint := (into_bellman_lc a, into_bellman_lc b, into_bellman_lc c).

(** Groth16CS::alloc, alloc_input, enforce (mod.rs:296-342) over the key
    generator's assembly *)
Definition gk_alloc (v : option F) (s : keyasm) : Index * keyasm :=
  (Aux (k_aux s), mkK (k_inputs s) (S (k_aux s)) (k_cons s)).
Definition gk_alloc_input (v : option F) (s : keyasm) : Index * keyasm :=
  (Input (k_inputs s), mkK (S (k_inputs s)) (k_aux s) (k_cons s)).
Definition gk_enforce (a b c : CNum p) (s : keyasm) : keyasm :=
  mkK (k_inputs s) (k_aux s) (k_cons s ++ [b_cons a b c]).
Fixpoint gk_run {A} (m : prog p A) (s : keyasm) : res (keyasm * A) :=
  match m with
  | Ret a => Ok (s, a)
  | PPanic => Panic
  | Alloc v k => let (i, s) := gk_alloc v s in gk_run (k i) s
  | AllocInput v k => let (i, s) := gk_alloc_input v s in gk_run (k i) s
  | Enforce a b c k => gk_run k (gk_enforce a b c s)
  end.

(** The same over the prover's assembly: [value.grab()] (mod.rs:260-265) fails
    on a missing value and the result is unwrapped (mod.rs:309, 319). *)
Definition grab (v : option F) : res F := match v with Some x => Ok x | None => Panic end.
Definition gp_alloc (v : option F) (s : proveasm) : res (Index * proveasm) :=
  rbind (grab v) (fun x => Ok (Aux (length (p_aux s)), mkP (p_inputs s) (p_aux s ++ [x]) (p_cons s))).
Definition gp_alloc_input (v : option F) (s : proveasm) : res (Index * proveasm) :=
  rbind (grab v) (fun x => Ok (Input (length (p_inputs s)), mkP (p_inputs s ++ [x]) (p_aux s) (p_cons s))).
Definition gp_enforce (a b c : CNum p) (s : proveasm) : proveasm :=
  mkP (p_inputs s) (p_aux s) (p_cons s ++ [b_cons a b c]).
Fixpoint gp_run {A} (m : prog p A) (s : proveasm) : res (proveasm * A) :=
  match m with
  | Ret a => Ok (s, a)
  | PPanic => Panic
  | Alloc v k => match gp_alloc v s with Ok (i, s) => gp_run (k i) s | Panic => Panic end
  | AllocInput v k => match gp_alloc_input v s with Ok (i, s) => gp_run (k i) s | Panic => Panic end
  | Enforce a b c k => gp_run k (gp_enforce a b c s)
  end.

(** HelperCircuit::synthesize under generate_keys and prove (prover.rs:83-111):
    the system the key generator and the prover work on. What bellman does with
    it is not modelled. *)
Definition key_system {A} (m : prog p A) : res (keyasm * A) := gk_run m keyasm_new.
Definition prove_system {A} (m : prog p A) : res (proveasm * A) := gp_run m proveasm_new.

End Backends.
