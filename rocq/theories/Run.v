(** A concrete back end, used to exhibit runs: it allocates the first free
    auxiliary variable, and the assignment is the values it is handed. *)

From Verif Require Export Claims.

Section Run.
Context {p : positive}.
Notation F := (Num p).
Open Scope num_scope.

Fixpoint run {A} (n : nat) (m : prog p A) : list (event p) * option A :=
  match m with
  | Ret a => ([], Some a)
  | PPanic => ([], None)
  | Alloc v k => let (tr, o) := run (S n) (k (Aux n)) in (EAlloc (Aux n) v :: tr, o)
  | AllocInput v k => let (tr, o) := run (S n) (k (Aux n)) in (EInput (Aux n) v :: tr, o)
  | Enforce a b c k => let (tr, o) := run n k in (EEnf a b c :: tr, o)
  end.
Definition below (n : nat) (i : Index) : Prop := match i with Input _ => True | Aux k => (k < n)%nat end.
Lemma run_exec {A} (m : prog p A) : forall n U, Forall (below n) U ->
  exec U m (fst (run n m)) (snd (run n m)).
Proof.
  induction m as [a| |v k IH|v k IH|a b c k IH]; intros n U HU; cbn [run].
  - constructor.
  - constructor.
  - specialize (IH (Aux n) (S n) (Aux n :: U)). destruct (run (S n) (k (Aux n))) as [tr o].
    cbn [fst snd] in *. constructor.
    + intros Hin. rewrite Forall_forall in HU. apply HU in Hin. cbn in Hin. lia.
    + apply IH. constructor; [cbn; lia|]. eapply Forall_impl; [|exact HU]. intros [] Hb; cbn in *; lia.
  - specialize (IH (Aux n) (S n) (Aux n :: U)). destruct (run (S n) (k (Aux n))) as [tr o].
    cbn [fst snd] in *. constructor.
    + intros Hin. rewrite Forall_forall in HU. apply HU in Hin. cbn in Hin. lia.
    + apply IH. constructor; [cbn; lia|]. eapply Forall_impl; [|exact HU]. intros [] Hb; cbn in *; lia.
  - specialize (IH n U HU). destruct (run n k) as [tr o]. cbn [fst snd] in *. now constructor.
Qed.

Definition satb (s : Index -> F) (tr : list (event p)) : bool :=
  forallb (fun e => match e with EEnf a b c => neqb (ceval s a * ceval s b) (ceval s c) | _ => true end) tr.
Lemma satb_sat s tr : satb s tr = true -> sat s tr.
Proof.
  unfold satb. rewrite forallb_forall. intros H a b c Hin. apply neqb_eq. exact (H _ Hin).
Qed.
Definition oeqb (v : option F) (w : F) : bool := match v with Some x => neqb x w | None => false end.
Lemma oeqb_eq v w : oeqb v w = true -> v = Some w.
Proof. destruct v as [x|]; cbn; [|discriminate]. intros H. apply neqb_eq in H. congruence. Qed.
Definition honestb (s : Index -> F) (tr : list (event p)) : bool :=
  forallb (fun e => match e with EAlloc i v | EInput i v => oeqb v (s i) | _ => true end) tr.
Lemma honestb_honest s tr : honestb s tr = true -> honest s tr.
Proof.
  unfold honestb. rewrite forallb_forall. intros H i v [Hin|Hin]; apply oeqb_eq; exact (H _ Hin).
Qed.

(** The values given to the back end, as an assignment: the first [n]
    auxiliary variables have the values [l]. *)
Definition assign (l : list F) (i : Index) : F :=
  match i with Input O => 1 | Input _ => 0 | Aux k => nth k l 0 end.
Fixpoint values (tr : list (event p)) : list F :=
  match tr with
  | [] => []
  | EAlloc _ v :: tr' | EInput _ v :: tr' => (match v with Some x => x | None => 0 end) :: values tr'
  | EEnf _ _ _ :: tr' => values tr'
  end.

(** [demo l m P]: with variables [Aux 0 ..] of values [l], [m] has an honest
    run whose values satisfy every constraint, and [P] holds of the result. *)
Definition demo {A} (l : list F) (m : prog p A) (P : (Index -> F) -> A -> Prop) : Prop :=
  exists tr r s, exec (I0 :: map Aux (seq 0 (length l))) m tr (Some r) /\ s I0 = 1 /\
    (forall k, (k < length l)%nat -> s (Aux k) = nth k l 0) /\ honest s tr /\ sat s tr /\ P s r.
Definition demob {A} (l : list F) (m : prog p A) (P : (Index -> F) -> A -> bool) : bool :=
  let (tr, o) := run (length l) m in
  let ws := (l ++ values tr)%list in
  let s := fun i => assign ws i in
  match o with Some r => honestb s tr && satb s tr && P s r | None => false end.
Lemma demob_ok {A} l (m : prog p A) (P : (Index -> F) -> A -> Prop) (Pb : (Index -> F) -> A -> bool) :
  (forall s r, Pb s r = true -> P s r) ->
  demob l m Pb = true -> demo l m P.
Proof.
  intros HP. unfold demob, demo.
  assert (He := run_exec m (length l) (I0 :: map Aux (seq 0 (length l)))).
  destruct (run (length l) m) as [tr o]. cbn [fst snd] in He.
  destruct o as [r|]; [|discriminate]. rewrite !Bool.andb_true_iff. intros [[H1 H2] H3].
  exists tr, r, (assign (l ++ values tr)%list). split; [|split; [|split; [|split; [|split]]]].
  - apply He. constructor; [exact I|]. rewrite Forall_map. apply Forall_forall. intros k Hk.
    apply in_seq in Hk. cbn. lia.
  - reflexivity.
  - intros k Hk. cbn. now rewrite app_nth1.
  - now apply honestb_honest.
  - now apply satb_sat.
  - now apply HP.
Qed.
End Run.
