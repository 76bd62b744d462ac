(** Theorems about the counters and names of Groth16CS (C76). *)

From Verif Require Export Groth16 BackendClaims.
From Verif Require Import CodecSpec.
Open Scope Z_scope.

(** A printed number is digits. *)
Lemma gname_inj x y n k : gname x n = gname y k -> x = y /\ n = k.
Proof.
  unfold gname. intros E. cbn [app] in E. injection E as -> E. split; [reflexivity|].
  apply app_inj_tail in E as [E _]. apply (f_equal biguint_from_str) in E.
  rewrite !to_string_parse in E by lia. injection E as E. lia.
Qed.

Section Run.
Context {p : positive} {S : Type} (B : BCS p S).
(** What the counters and the names are after a run. *)
Definition names_ok (names : list (list Z)) (nv nc : nat) : Prop :=
  NoDup names /\ (length names = (nv - 1) + nc)%nat /\
  (forall k, (1 <= k < nv)%nat -> In (gname 97 k) names \/ In (gname 105 k) names) /\
  (forall k, (k < nc)%nat -> In (gname 99 k) names) /\
  (forall n, In n names -> (exists k, (1 <= k < nv)%nat /\ (n = gname 97 k \/ n = gname 105 k)) \/ (exists k, (k < nc)%nat /\ n = gname 99 k)).
Lemma names_var names nv nc x : (1 <= nv)%nat -> x = 97 \/ x = 105 -> names_ok names nv nc -> names_ok (gname x nv :: names) (nv + 1) nc.
Proof.
  intros V X [N [L [I1 [I2 I3]]]]. repeat split.
  - constructor; [|exact N]. intros H. destruct (I3 _ H) as [[k [Hk [E|E]]]|[k [Hk E]]]; apply gname_inj in E; lia.
  - cbn [length]. lia.
  - intros k Hk. destruct (Nat.eq_dec k nv) as [->|D]; [destruct X as [-> | ->]; cbn; auto|].
    destruct (I1 k) as [H|H]; [lia|left; now right|right; now right].
  - intros k Hk. right. now apply I2.
  - intros n [<-|H].
    + left. exists nv. split; [lia|]. destruct X as [-> | ->]; auto.
    + destruct (I3 _ H) as [[k [Hk E]]|[k [Hk E]]]; [left|right]; exists k; (split; [lia|exact E]).
Qed.
Lemma names_con names nv nc : names_ok names nv nc -> names_ok (gname 99 nc :: names) nv (nc + 1).
Proof.
  intros [N [L [I1 [I2 I3]]]]. repeat split.
  - constructor; [|exact N]. intros H. destruct (I3 _ H) as [[k [Hk [E|E]]]|[k [Hk E]]]; apply gname_inj in E; lia.
  - cbn [length]. lia.
  - intros k Hk. destruct (I1 k) as [H|H]; [lia|left; now right|right; now right].
  - intros k Hk. destruct (Nat.eq_dec k nc) as [->|D]; [now left|]. right. apply I2. lia.
  - intros n [<-|H].
    + right. exists nc. split; [lia|reflexivity].
    + destruct (I3 _ H) as [[k [Hk E]]|[k [Hk E]]]; [left|right]; exists k; (split; [lia|exact E]).
Qed.
Lemma names_run {A} (m : prog p A) : forall g g' a, g_run (named B) m g = Ok (g', a) ->
  (1 <= g_ninputs g)%nat -> names_ok (snd (g_bcs g)) (g_ninputs g) (g_ncons g) ->
  names_ok (snd (g_bcs g')) (g_ninputs g') (g_ncons g') /\ g_naux g' = g_naux g.
Proof.
  induction m as [a0| |v k IH|v k IH|a0 b c k IH]; intros g g' a E V N; cbn in E; unfold g_alloc, g_alloc_input in E; cbn in E.
  - injection E as <- <-. auto.
  - discriminate.
  - destruct (bc_alloc B _ _ _) as [[i s]|]; cbn in E; [|discriminate].
    destruct (IH _ _ _ _ E) as [N' X]; cbn in *; [lia|apply names_var; auto|auto].
  - destruct (bc_alloc_input B _ _ _) as [[i s]|]; cbn in E; [|discriminate].
    destruct (IH _ _ _ _ E) as [N' X]; cbn in *; [lia|apply names_var; auto|auto].
  - destruct (IH _ _ _ E) as [N' X]; cbn in *; [lia|apply names_con; auto|auto].
Qed.
Lemma named_run {A} (m : prog p A) : forall g names,
  rmap (fun r => (mkG (g_ninputs (fst r)) (g_naux (fst r)) (g_ncons (fst r)) (fst (g_bcs (fst r))), snd r))
    (g_run (named B) m (mkG (g_ninputs g) (g_naux g) (g_ncons g) (g_bcs g, names))) = g_run B m g.
Proof.
  induction m as [a0| |v k IH|v k IH|a0 b c k IH]; intros g names; cbn; unfold g_alloc, g_alloc_input; cbn.
  - now destruct g.
  - reflexivity.
  - destruct (bc_alloc B _ _ _) as [[i s]|]; cbn; [|reflexivity]. exact (IH i (mkG (g_ninputs g + 1) (g_naux g) (g_ncons g) s) _).
  - destruct (bc_alloc_input B _ _ _) as [[i s]|]; cbn; [|reflexivity]. exact (IH i (mkG (g_ninputs g + 1) (g_naux g) (g_ncons g) s) _).
  - exact (IH (mkG (g_ninputs g) (g_naux g) (g_ncons g + 1) _) _).
Qed.
End Run.

Lemma key_same {p A} (m : prog p A) : forall g, rmap (fun r => (g_bcs (fst r), snd r)) (g_run key_bcs m g) = gk_run m (g_bcs g).
Proof. induction m as [a0| |v k IH|v k IH|a0 b c k IH]; intros g; cbn; unfold g_alloc, g_alloc_input; cbn; try reflexivity; rewrite IH; reflexivity. Qed.
Lemma prove_same {p A} (m : prog p A) : forall g, rmap (fun r => (g_bcs (fst r), snd r)) (g_run prove_bcs m g) = gp_run m (g_bcs g).
Proof.
  induction m as [a0| |v k IH|v k IH|a0 b c k IH]; intros g; cbn; unfold g_alloc, g_alloc_input; cbn; try reflexivity.
  - unfold gp_alloc. destruct v as [x|]; cbn; [|reflexivity]. now rewrite IH.
  - unfold gp_alloc_input. destruct v as [x|]; cbn; [|reflexivity]. now rewrite IH.
  - now rewrite IH.
Qed.
Lemma key_counts {p A} (m : prog p A) : forall g g' a, g_run key_bcs m g = Ok (g', a) ->
  g_ninputs g = (k_inputs (g_bcs g) + k_aux (g_bcs g))%nat -> g_ncons g = length (k_cons (g_bcs g)) ->
  g_ninputs g' = (k_inputs (g_bcs g') + k_aux (g_bcs g'))%nat /\ g_ncons g' = length (k_cons (g_bcs g')).
Proof.
  induction m as [a0| |v k IH|v k IH|a0 b c k IH]; intros g g' a E H1 H2; cbn in E; unfold g_alloc, g_alloc_input in E; cbn in E; try discriminate.
  - injection E as <- <-. auto.
  - apply (IH _ _ _ _ E); cbn; lia.
  - apply (IH _ _ _ _ E); cbn; lia.
  - apply (IH _ _ _ E); cbn; [lia|]. rewrite app_length; cbn; lia.
Qed.
Lemma prove_counts {p A} (m : prog p A) : forall g g' a, g_run prove_bcs m g = Ok (g', a) ->
  g_ninputs g = (length (p_inputs (g_bcs g)) + length (p_aux (g_bcs g)))%nat -> g_ncons g = length (p_cons (g_bcs g)) ->
  g_ninputs g' = (length (p_inputs (g_bcs g')) + length (p_aux (g_bcs g')))%nat /\ g_ncons g' = length (p_cons (g_bcs g')).
Proof.
  induction m as [a0| |v k IH|v k IH|a0 b c k IH]; intros g g' a E H1 H2; cbn in E; unfold g_alloc, g_alloc_input in E; cbn in E; try discriminate.
  - injection E as <- <-. auto.
  - destruct v as [x|]; cbn in E; [|discriminate]. apply (IH _ _ _ _ E); cbn; rewrite ?app_length; cbn; lia.
  - destruct v as [x|]; cbn in E; [|discriminate]. apply (IH _ _ _ _ E); cbn; rewrite ?app_length; cbn; lia.
  - apply (IH _ _ _ E); cbn; [lia|]. rewrite app_length; cbn; lia.
Qed.

(* C76 *)
(** Over bellman's assemblies Groth16CS is the system of C62, and its first counter
    counts all variables, its third the constraints, its second nothing. *)
Lemma claim_C76_counters : forall p A (m : prog p A),
  rmap (fun r => (g_bcs (fst r), snd r)) (g_run key_bcs m (gcs_new keyasm_new)) = key_system m /\
  rmap (fun r => (g_bcs (fst r), snd r)) (g_run prove_bcs m (gcs_new proveasm_new)) = prove_system m /\
  (forall g a, g_run key_bcs m (gcs_new keyasm_new) = Ok (g, a) ->
     g_ninputs g = (k_inputs (g_bcs g) + k_aux (g_bcs g))%nat /\ g_naux g = 0%nat /\ g_ncons g = length (k_cons (g_bcs g))) /\
  (forall g a, g_run prove_bcs m (gcs_new proveasm_new) = Ok (g, a) ->
     g_ninputs g = (length (p_inputs (g_bcs g)) + length (p_aux (g_bcs g)))%nat /\ g_naux g = 0%nat /\ g_ncons g = length (p_cons (g_bcs g))).
Proof.
  intros p A m. split; [apply (key_same m (gcs_new keyasm_new))|]. split; [apply (prove_same m (gcs_new proveasm_new))|].
  assert (X : forall S (B : BCS p S) s g (a : A), g_run B m (gcs_new s) = Ok (g, a) -> g_naux g = 0%nat).
  { intros S B s g a E. pose proof (named_run B m (gcs_new s) []) as R. rewrite E in R.
    destruct (g_run (named B) m _) as [[g' a']|] eqn:E'; cbn in R; [|discriminate]. injection R as <- <-. cbn.
    refine (proj2 (names_run B m _ _ _ E' _ _)); cbn; [lia|]. repeat split; try (intros; lia); [constructor|cbn; tauto]. }
  split; intros g a E.
  - destruct (key_counts m _ _ _ E) as [H1 H2]; [reflexivity|reflexivity|]. split; [exact H1|]. split; [exact (X _ _ _ _ _ E)|exact H2].
  - destruct (prove_counts m _ _ _ E) as [H1 H2]; [reflexivity|reflexivity|]. split; [exact H1|]. split; [exact (X _ _ _ _ _ E)|exact H2].
Qed.
(** A public input, then an auxiliary variable: the counter is 3 after both. *)
Lemma case_C76_counters : exists g, g_run (p := 73) key_bcs (calloc_input None ;;; calloc None) (gcs_new keyasm_new) = Ok (g, cvar None (Aux 0)) /\
  g_ninputs g = 3%nat /\ g_naux g = 0%nat /\ g_ncons g = 0%nat.
Proof. eexists. split; [reflexivity|]. repeat split. Qed.

(** The names given to any bellman constraint system, in any circuit, are pairwise
    different: i[k] or a[k] for the k-th variable of either kind, c[k] for constraints.
    Recording them changes nothing else. *)
Lemma claim_C76_names : forall p S (B : BCS p S) A (m : prog p A) (s : S),
  rmap (fun r => (mkG (g_ninputs (fst r)) (g_naux (fst r)) (g_ncons (fst r)) (fst (g_bcs (fst r))), snd r))
    (g_run (named B) m (gcs_new (s, []))) = g_run B m (gcs_new s) /\
  forall g a, g_run (named B) m (gcs_new (s, [])) = Ok (g, a) ->
    let names := snd (g_bcs g) in
    NoDup names /\ length names = (g_ninputs g - 1 + g_ncons g)%nat /\
    (forall k, (1 <= k < g_ninputs g)%nat -> In (gname 97 k) names \/ In (gname 105 k) names) /\
    (forall k, (k < g_ncons g)%nat -> In (gname 99 k) names).
Proof.
  intros p S B A m s. split; [exact (named_run B m (gcs_new s) [])|]. intros g a E names.
  destruct (names_run B m _ _ _ E) as [[N [L [I1 [I2 _]]]] _]; cbn; [lia| |auto].
  repeat split; try (intros; lia); [constructor|cbn; tauto].
Qed.
(** i[1], a[2], c[0]: the auxiliary variable with index 0 is called a[2]. *)
Lemma case_C76_names : exists g,
  g_run (p := 73) (named key_bcs) (x <-- calloc_input None ;; y <-- calloc None ;; enforce x y x ;;; Ret y) (gcs_new (keyasm_new, [])) = Ok (g, cvar None (Aux 0)) /\
  snd (g_bcs g) = [[99; 91; 48; 93]; [97; 91; 50; 93]; [105; 91; 49; 93]].
Proof. eexists. split; [reflexivity|]. vm_compute. reflexivity. Qed.
