(** Groth16CS (src/helpers/groth16/mod.rs:267-343) over any bellman constraint
    system, with its counters and the names it gives to variables and constraints.
    Backends.v has the same system over bellman's two assemblies without them.
    Model only. *)

From Verif Require Export Backends Bytes.
Open Scope Z_scope.

(** bellman::ConstraintSystem as far as it is called: the annotation (a closure in
    the code, here its text), the value closure, and the state. *)
Record BCS (p : positive) (S : Type) := mkBCS {
  bc_alloc : list Z -> res (Num p) -> S -> res (Index * S);
  bc_alloc_input : list Z -> res (Num p) -> S -> res (Index * S);
  bc_enforce : list Z -> lcT p -> lcT p -> lcT p -> S -> S }.
Arguments mkBCS {p S}. Arguments bc_alloc {p S}. Arguments bc_alloc_input {p S}. Arguments bc_enforce {p S}.

(** Groth16CS (mod.rs:267-273) and new (mod.rs:284-294) *)
Record gcs (S : Type) := mkG { g_ninputs : nat; g_naux : nat; g_ncons : nat; g_bcs : S }.
Arguments mkG {S}. Arguments g_ninputs {S}. Arguments g_naux {S}. Arguments g_ncons {S}. Arguments g_bcs {S}.
Definition gcs_new {S} (s : S) : gcs S := mkG 1 0 0 s.

(** [format!("a[{}]", n)], and with i and c *)
Definition gname (letter : Z) (n : nat) : list Z := [letter; 91] ++ biguint_to_string (Z.of_nat n) ++ [93].

Section Groth16CS.
Context {p : positive} {S : Type} (B : BCS p S).
(** alloc (mod.rs:301-310). The counter it takes is [ninputs], not [naux]. *)
Definition g_alloc (v : option (Num p)) (g : gcs S) : res (Index * gcs S) :=
  let naux := g_ninputs g in
  r <-? bc_alloc B (gname 97 naux) (grab v) (g_bcs g) ;
  Ok (fst r, mkG (naux + 1) (g_naux g) (g_ncons g) (snd r)).
(** alloc_input (mod.rs:311-320) *)
Definition g_alloc_input (v : option (Num p)) (g : gcs S) : res (Index * gcs S) :=
  let ninputs := g_ninputs g in
  r <-? bc_alloc_input B (gname 105 ninputs) (grab v) (g_bcs g) ;
  Ok (fst r, mkG (ninputs + 1) (g_naux g) (g_ncons g) (snd r)).
(** enforce (mod.rs:322-342) *)
Definition g_enforce (a b c : CNum p) (g : gcs S) : gcs S :=
  let ncons := g_ncons g in
  mkG (g_ninputs g) (g_naux g) (ncons + 1)
    (bc_enforce B (gname 99 ncons) (into_bellman_lc a) (into_bellman_lc b) (into_bellman_lc c) (g_bcs g)).
Fixpoint g_run {A} (m : prog p A) (g : gcs S) : res (gcs S * A) :=
  match m with
  | Ret a => Ok (g, a)
  | PPanic => Panic
  | Alloc v k => r <-? g_alloc v g ; g_run (k (fst r)) (snd r)
  | AllocInput v k => r <-? g_alloc_input v g ; g_run (k (fst r)) (snd r)
  | Enforce a b c k => g_run k (g_enforce a b c g)
  end.
End Groth16CS.

(** bellman's two assemblies (see Backends.v): neither uses the names, the key
    generator does not call the value closure. *)
Definition key_bcs {p} : BCS p (@keyasm p) := mkBCS
  (fun _ _ s => Ok (Aux (k_aux s), mkK (k_inputs s) (S (k_aux s)) (k_cons s)))
  (fun _ _ s => Ok (Input (k_inputs s), mkK (S (k_inputs s)) (k_aux s) (k_cons s)))
  (fun _ a b c s => mkK (k_inputs s) (k_aux s) (k_cons s ++ [(a, b, c)])).
Definition prove_bcs {p} : BCS p (@proveasm p) := mkBCS
  (fun _ v s => x <-? v ; Ok (Aux (length (p_aux s)), mkP (p_inputs s) (p_aux s ++ [x]) (p_cons s)))
  (fun _ v s => x <-? v ; Ok (Input (length (p_inputs s)), mkP (p_inputs s ++ [x]) (p_aux s) (p_cons s)))
  (fun _ a b c s => mkP (p_inputs s) (p_aux s) (p_cons s ++ [(a, b, c)])).
(** Any system, with a list of the names it was given, the last first. *)
Definition named {p S} (B : BCS p S) : BCS p (S * list (list Z)) := mkBCS
  (fun n v s => r <-? bc_alloc B n v (fst s) ; Ok (fst r, (snd r, n :: snd s)))
  (fun n v s => r <-? bc_alloc_input B n v (fst s) ; Ok (fst r, (snd r, n :: snd s)))
  (fun n a b c s => (bc_enforce B n a b c (fst s), n :: snd s)).
