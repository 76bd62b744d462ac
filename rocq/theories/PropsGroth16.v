(** Generated from Groth16Claims.v by tools/genprops.py. *)
From Verif Require Import Groth16Claims.
Open Scope Z_scope.

(** Over bellman's assemblies Groth16CS is the system of C62, and its first counter
    counts all variables, its third the constraints, its second nothing. *)
Theorem C76_counters : forall p A (m : prog p A),
  rmap (fun r => (g_bcs (fst r), snd r)) (g_run key_bcs m (gcs_new keyasm_new)) = key_system m /\
  rmap (fun r => (g_bcs (fst r), snd r)) (g_run prove_bcs m (gcs_new proveasm_new)) = prove_system m /\
  (forall g a, g_run key_bcs m (gcs_new keyasm_new) = Ok (g, a) ->
     g_ninputs g = (k_inputs (g_bcs g) + k_aux (g_bcs g))%nat /\ g_naux g = 0%nat /\ g_ncons g = length (k_cons (g_bcs g))) /\
  (forall g a, g_run prove_bcs m (gcs_new proveasm_new) = Ok (g, a) ->
     g_ninputs g = (length (p_inputs (g_bcs g)) + length (p_aux (g_bcs g)))%nat /\ g_naux g = 0%nat /\ g_ncons g = length (p_cons (g_bcs g))).
Proof. exact claim_C76_counters. Qed.
Print Assumptions C76_counters.

(** A public input, then an auxiliary variable: the counter is 3 after both. *)
Example C76_counters_case : exists g, g_run (p := 73) key_bcs (calloc_input None ;;; calloc None) (gcs_new keyasm_new) = Ok (g, cvar None (Aux 0)) /\
  g_ninputs g = 3%nat /\ g_naux g = 0%nat /\ g_ncons g = 0%nat.
Proof. exact case_C76_counters. Qed.

(** The names given to any bellman constraint system, in any circuit, are pairwise
    different: i[k] or a[k] for the k-th variable of either kind, c[k] for constraints.
    Recording them changes nothing else. *)
Theorem C76_names : forall p S (B : BCS p S) A (m : prog p A) (s : S),
  rmap (fun r => (mkG (g_ninputs (fst r)) (g_naux (fst r)) (g_ncons (fst r)) (fst (g_bcs (fst r))), snd r))
    (g_run (named B) m (gcs_new (s, []))) = g_run B m (gcs_new s) /\
  forall g a, g_run (named B) m (gcs_new (s, [])) = Ok (g, a) ->
    let names := snd (g_bcs g) in
    NoDup names /\ length names = (g_ninputs g - 1 + g_ncons g)%nat /\
    (forall k, (1 <= k < g_ninputs g)%nat -> In (gname 97 k) names \/ In (gname 105 k) names) /\
    (forall k, (k < g_ncons g)%nat -> In (gname 99 k) names).
Proof. exact claim_C76_names. Qed.
Print Assumptions C76_names.

(** i[1], a[2], c[0]: the auxiliary variable with index 0 is called a[2]. *)
Example C76_names_case : exists g,
  g_run (p := 73) (named key_bcs) (x <-- calloc_input None ;; y <-- calloc None ;; enforce x y x ;;; Ret y) (gcs_new (keyasm_new, [])) = Ok (g, cvar None (Aux 0)) /\
  snd (g_bcs g) = [[99; 91; 48; 93]; [97; 91; 50; 93]; [105; 91; 49; 93]].
Proof. exact case_C76_names. Qed.
