(** Whole circuits: every satisfying assignment of a circuit built from library
    calls is a run of the native functions, and a native run is an honest run. *)

From Verif Require Export MontClaims MetaClaims MiscClaims PoseidonClaims NumClaims BitClaims ConstClaims ParamClaims BindClaims.
From Coq Require Import Lia.
Open Scope num_scope.

Section Means.
Context {p l : positive} (sqrt : Num p -> option (Num p)) (PP : @PoseidonParams p) (J : JubJub p l).
Notation F := (Num p).
Notation d := (jd J).

Definition args (o : @op p) : list nat :=
  let pts := flat_map (fun P : nat * nat => [fst P; snd P]) in
  match o with
  | oConst _ | oAlloc _ | oBConst _ | oBAlloc _ => []
  | oInputize a | oNeg a | oAddNum a _ | oSubNum a _ | oNumSub _ a | oMulNum a _ | oDivNum a _ | oSquare a
  | oAssertConst a _ | oAssertZero a | oAssertNonzero a | oAssertBit a | oIsZero a | oBAssert a | oBAssertConst a _
  | oIntoBits a _ | oIntoBitsStrict a | oEDecompress a | oEFromScalar a => [a]
  | oAdd a b | oAddCap a b | oAddRv a b | oSub a b | oMul a b | oDiv a b | oAssertEq a b | oIsEq a b => [a; b]
  | oSwitch a bit b => [a; bit; b]
  | oFromBits bs | oCompConstant bs _ | oMux3 bs _ | oPoseidon bs | oPoseidonSalt bs _ | oMerkleTree bs => bs
  | oMerkleProof leaf sib path => leaf :: sib ++ path
  | oPSwitch P bit Q => bit :: pts [P; Q]
  | oEDouble P | oECofactor P | oEInCurve P | oEInSubgroup P | oEIntoMont P | oMDouble P | oMIntoEdwards P => pts [P]
  | oEAdd P Q | oMAdd P Q => pts [P; Q]
  | oEMul P bs => pts [P] ++ bs
  | oEddsaVerify s r a m => [s; r; a; m]
  end.

(** [means R V o out]: what the call [o] says of its results [out], given the
    values [V] of the registers [R], in terms of the native library. The
    registers themselves only decide which arguments are constants. *)
Definition bitsof (V : list F) (is : list nat) (b : list bool) : Prop := map (fun i => nth i V 0) is = map nbool b.
Definition xy (Q : EPoint p) : list F := [ex Q; ey Q].
Definition uv (M : MPoint p) : list F := [mx M; my M].
Definition means (R : list (CNum p)) (V : list F) (o : @op p) (out : list F) : Prop :=
  let v i := nth i V 0 in
  let pt P := mkE (v (fst P)) (v (snd P)) in
  let mp P := mkM (v (fst P)) (v (snd P)) in
  let reg i := nth i R czero in
  let nc i := as_const (reg i) = None in
  let ncp P := nc (fst P) /\ nc (snd P) in
  match o with
  | oConst k => out = [k]
  | oAlloc _ | oBAlloc _ => length out = 1%nat
  | oInputize _ => out = []
  | oAdd a b | oAddCap a b | oAddRv a b => out = [v a + v b]
  | oSub a b => out = [v a - v b]
  | oNeg a => out = [- v a]
  | oAddNum a k => out = [v a + k]
  | oSubNum a k => out = [v a - k]
  | oNumSub k a => out = [k - v a]
  | oMulNum a k => out = [v a * k]
  | oDivNum a k => exists q, out = [q] /\ (k <> 0 -> ndiv (v a) k = Ok q)
  | oMul a b => out = [v a * v b]
  | oSquare a => out = [v a * v a]
  | oDiv a b => exists q, out = [q] /\ (nc a -> q * v b = v a) /\ (~ nc a -> v a <> 0 -> q * v a = v b)
  | oAssertConst a k => out = [] /\ v a = k
  | oAssertZero a => out = [] /\ v a = 0
  | oAssertEq a b => out = [] /\ v a = v b
  | oAssertNonzero a => out = [] /\ v a <> 0
  | oAssertBit a | oBAssert a => out = [] /\ (v a = 0 \/ v a = 1)
  | oIsZero a => exists q, out = [q] /\ (v a = 0 -> q = 1) /\ (v a <> 0 -> q = 0)
  | oIsEq a b => exists q, out = [q] /\ (v a = v b -> q = 1) /\ (v a <> v b -> q = 0)
  | oSwitch a bit b => exists q, out = [q] /\ (v bit = 1 -> q = v a) /\ (v bit = 0 -> q = v b)
  | oBConst b => out = [if b then 1 else 0]
  | oBAssertConst a b => out = [] /\ v a = if b then 1 else 0
  | oIntoBits a n => (1 <= n)%nat -> exists b, length b = n /\ out = map nbool b /\ v a = num (bval b) /\
      ((2 ^ Z.of_nat n <= Zpos p)%Z -> b = bits_of n (nval (v a)) /\ (nval (v a) < 2 ^ Z.of_nat n)%Z)
  | oIntoBitsStrict a => out = map nbool (bits_of (num_bits p) (nval (v a)))
  | oFromBits bs => exists q, out = [q] /\ forall b, bitsof V bs b -> q = num (bval b)
  | oCompConstant bs ct => exists q, out = [q] /\
      let h := (Nat.div2 (length bs) + length bs mod 2)%nat in
      ((2 ^ Z.of_nat (h + 1) <= Zpos p)%Z -> forall b, bitsof V bs b ->
         q = if (nval ct mod 2 ^ Z.of_nat (2 * h) <? bval b)%Z then 1 else 0)
  | oMux3 bs t => forall b, bitsof V bs b -> length bs = 3%nat /\ out = map (fun col => nth (Z.to_nat (bval b)) col 0) t
  | oPoseidon ins => exists h, poseidon PP (map v ins) = Ok h /\ out = [h]
  | oPoseidonSalt ins salt => exists h, poseidon_with_salt PP (map v ins) salt = Ok h /\ out = [h]
  | oMerkleProof leaf sib path => exists r, out = [r] /\ (length path = length sib -> forall b, bitsof V path b ->
      poseidon_merkle_proof_root PP (v leaf) (map v sib) b = Ok r)
  | oMerkleTree leaf => exists r, poseidon_merkle_tree_root PP (map v leaf) = Ok r /\ out = [r]
  | oPSwitch P bit Q => exists T, out = xy T /\ (v bit = 1 -> T = pt P) /\ (v bit = 0 -> T = pt Q)
  | oEDouble P => exists T, out = xy T /\ (ncp P -> on_curve d (pt P) -> e_double (pt P) = Ok T)
  | oECofactor P => exists T, out = xy T /\ (ncp P -> on_curve d (pt P) -> e_mul_by_cofactor (pt P) = Ok T)
  | oEAdd P Q => exists T, out = xy T /\ (ncp P -> ncp Q -> on_curve d (pt P) -> on_curve d (pt Q) -> e_add d (pt P) (pt Q) = Ok T)
  | oEInCurve P => out = [] /\ e_is_in_curve d (pt P) = true
  | oEInSubgroup P => out = [] /\ on_curve d (pt P) /\ x_is_in_subgroup l d (e_into_extended (pt P)) = true
  | oEDecompress x => exists T, out = xy T /\ (nc x -> subgroup_decompress sqrt l d (v x) = Ok (Some T))
  | oEIntoMont P => exists M, out = uv M /\ (ncp P -> on_curve d (pt P) -> v (fst P) <> 0 -> e_into_montgomery (pt P) = Ok (Some M))
  | oMDouble P => exists M, out = uv M /\ (ncp P -> on_mont (ja J) (jb J) (mp P) -> v (fst P) <> 0 ->
      exists A S, m_into_affine (mp P) = Ok A /\ e_double A = Ok S /\ e_into_montgomery S = Ok (Some M))
  | oMAdd P Q => exists M, out = uv M /\
      (as_const (csub (reg (fst Q)) (reg (fst P))) = None -> as_const (csub (reg (snd Q)) (reg (snd P))) = None ->
       on_mont (ja J) (jb J) (mp P) -> on_mont (ja J) (jb J) (mp Q) -> v (fst P) <> v (fst Q) -> v (fst Q) <> 0 ->
       exists A B S, m_into_affine (mp P) = Ok A /\ m_into_affine (mp Q) = Ok B /\ e_add d A B = Ok S /\ e_into_montgomery S = Ok (Some M))
  | oMIntoEdwards P => exists T, out = xy T /\ (ncp P -> on_mont (ja J) (jb J) (mp P) -> m_into_affine (mp P) = Ok T)
  | oEMul P bs => exists T, out = xy T /\
      ((ncp P /\ Exists (fun i => as_const (reg i) <> Some 0) bs) \/ (cp_as_const (mkP (reg (fst P)) (reg (snd P))) <> None /\ free_bits (map reg bs)) ->
       insub J (pt P) -> forall b, bitsof V bs b -> e_mul d (pt P) (num (bval b) : Num l) = Ok T)
  | oEFromScalar t => exists T, out = xy T /\ (nc t -> v t <> - (1) /\ from_scalar sqrt J (v t) = Ok T)
  | oEddsaVerify s r a m => exists q, out = [q] /\ (nc s -> nc r -> nc a -> nc m ->
      (nval (v s) < 2 ^ Z.of_nat (num_bits l))%Z /\
      (exists A, subgroup_decompress sqrt l d (v a) = Ok (Some A)) /\ (exists B, subgroup_decompress sqrt l d (v r) = Ok (Some B)) /\
      exists b, eddsaposeidon_verify PP sqrt J (num (nval (v s)) : Num l) (v r) (v a) (v m) = Ok b /\ q = nbool b)
  end.

(** [ready R V o]: the arguments are in the domain where the call is meant to
    work and an honest prover can satisfy it. *)
Definition ready (R : list (CNum p)) (V : list F) (o : @op p) : Prop :=
  let v i := nth i V 0 in
  let pt P := mkE (v (fst P)) (v (snd P)) in
  let mp P := mkM (v (fst P)) (v (snd P)) in
  let reg i := nth i R czero in
  let nc i := as_const (reg i) = None in
  let ncp P := nc (fst P) /\ nc (snd P) in
  Forall (fun i => (i < length R)%nat) (args o) /\
  match o with
  | oDivNum a k => k <> 0
  | oDiv a b => nc a /\ v b <> 0
  | oAssertConst a k => v a = k
  | oAssertZero a => v a = 0
  | oAssertEq a b => v a = v b
  | oAssertNonzero a => v a <> 0
  | oAssertBit a | oBAssert a => v a = 0 \/ v a = 1
  | oBAssertConst a b => v a = if b then 1 else 0
  | oSwitch _ bit _ => v bit = 0 \/ v bit = 1
  | oIntoBits a n => (1 <= n <= num_bits p)%nat /\ (nval (v a) < 2 ^ Z.of_nat n)%Z
  | oFromBits bs => bs <> []
  | oCompConstant bs ct => let h := (Nat.div2 (length bs) + length bs mod 2)%nat in
      (2 ^ Z.of_nat (h + 1) <= Zpos p)%Z /\ (nval ct < 2 ^ Z.of_nat (2 * h))%Z /\ (0 < length bs <= 64 * num_limbs p)%nat /\ exists b, bitsof V bs b
  | oMux3 bs t => length bs = 3%nat /\ Forall (fun col => length col = 8%nat) t
  | oPoseidon ins => (0 < length ins <= ppt PP)%nat
  | oPoseidonSalt ins _ => (0 < length ins < ppt PP)%nat
  | oMerkleProof _ sib path => length path = length sib /\ exists b, bitsof V path b
  | oMerkleTree leaf => leaf <> []
  | oPSwitch _ bit _ => v bit = 0 \/ v bit = 1
  | oEDouble P | oECofactor P => ncp P /\ on_curve d (pt P)
  | oEAdd P Q => ncp P /\ ncp Q /\ on_curve d (pt P) /\ on_curve d (pt Q)
  | oEInCurve P => on_curve d (pt P)
  | oEInSubgroup P => insub J (pt P)
  | oEDecompress x => nc x /\ exists T, subgroup_decompress sqrt l d (v x) = Ok (Some T)
  | oEIntoMont P => ncp P /\ on_curve d (pt P) /\ v (fst P) <> 0
  | oMDouble P => ncp P /\ on_mont (ja J) (jb J) (mp P) /\ v (fst P) <> 0
  | oMAdd P Q => as_const (csub (reg (fst Q)) (reg (fst P))) = None /\ as_const (csub (reg (snd Q)) (reg (snd P))) = None /\
      on_mont (ja J) (jb J) (mp P) /\ on_mont (ja J) (jb J) (mp Q) /\ v (fst P) <> v (fst Q) /\ v (fst Q) <> 0
  | oMIntoEdwards P => ncp P /\ on_mont (ja J) (jb J) (mp P)
  | oEMul P bs => ((ncp P /\ Exists (fun i => as_const (reg i) <> Some 0) bs) \/ (cp_as_const (mkP (reg (fst P)) (reg (snd P))) <> None /\ free_bits (map reg bs))) /\
      insub J (pt P) /\ exists b, bitsof V bs b
  | oEFromScalar t => nc t /\ v t <> - (1)
  | oEddsaVerify s r a m => (nc s /\ nc r /\ nc a /\ nc m) /\ (nval (v s) < 2 ^ Z.of_nat (num_bits l))%Z /\
      (exists A, subgroup_decompress sqrt l d (v a) = Ok (Some A)) /\ (exists B, subgroup_decompress sqrt l d (v r) = Ok (Some B))
  | _ => True
  end.
End Means.

(** Rules for one call. *)
Definition complete_at {p A} (s0 : Index -> Num p) (U : list Index) (m : prog p A) (P : (Index -> Num p) -> A -> Prop) : Prop :=
  forall tr o, exec U m tr o -> exists s a, (forall i, In i U -> s i = s0 i) /\ honest s tr /\ sat s tr /\ o = Some a /\ P s a.

Section Rules.
Context {p : positive}.
Notation F := (Num p).
Implicit Types (s : Index -> F) (U : list Index).

Lemma sound_weaken {A} U (m : prog p A) (P Q : (Index -> F) -> A -> Prop) :
  (forall s a, s I0 = 1 -> P s a -> Q s a) -> sound_for U m P -> sound_for U m Q.
Proof. intros H S0 s tr a H1 He Hs. apply H; auto. now apply (S0 s tr). Qed.
Lemma complete_use {A} s0 U (m : prog p A) (Pre : (Index -> F) -> Prop) (P Q : (Index -> F) -> A -> Prop) :
  In I0 U -> s0 I0 = 1 -> complete_for U m Pre P -> Pre s0 ->
  (forall s a, s I0 = 1 -> (forall i, In i U -> s i = s0 i) -> P s a -> Q s a) -> complete_at s0 U m Q.
Proof.
  intros H0 H1 H HP HQ tr o He. destruct (H s0 tr o H1 HP He) as [s [a [A1 [A2 [A3 [A4 A5]]]]]]. exists s, a.
  repeat split; auto. apply HQ; auto. rewrite (A1 I0 H0). exact H1.
Qed.
Lemma exec_lift {A B} U (r : res A) (k : A -> prog p B) tr o : exec U (pbind (plift r) k) tr o ->
  match r with Ok a => exec U (k a) tr o | Panic => tr = [] /\ o = None end.
Proof. destruct r; cbn [plift pbind]; auto. inversion 1; auto. Qed.

(** Reading registers. *)
Lemma reg_facts U R i c : Forall (owned U) R -> nth_error R i = Some c ->
  owned U c /\ nth i R czero = c /\ forall s, nth i (map (ceval s) R) 0 = ceval s c.
Proof.
  intros HR E. split; [|split].
  - rewrite Forall_forall in HR. apply HR. eapply nth_error_In; eauto.
  - now apply nth_error_nth.
  - intros s. apply nth_error_nth. now apply map_nth_error.
Qed.
Lemma sound_reg {B} U R i (k : CNum p -> prog p B) Q :
  (forall c, nth_error R i = Some c -> sound_for U (k c) Q) -> sound_for U (pbind (reg R i) k) Q.
Proof.
  intros H s tr a H1 He Hs. unfold reg in He. apply exec_lift in He. destruct (nth_error R i) as [c|] eqn:E; cbn [unwrap] in He.
  - apply (H c eq_refl s tr a); auto.
  - destruct He; discriminate.
Qed.
Lemma complete_reg {B} s0 U R i (k : CNum p -> prog p B) Q : (i < length R)%nat ->
  (forall c, nth_error R i = Some c -> complete_at s0 U (k c) Q) -> complete_at s0 U (pbind (reg R i) k) Q.
Proof.
  intros Hi H tr o He. unfold reg in He. apply exec_lift in He. destruct (nth_error R i) as [c|] eqn:E; cbn [unwrap] in He.
  - apply (H c eq_refl tr o); auto.
  - apply nth_error_None in E. lia.
Qed.
Definition regs_are (R : list (CNum p)) (is : list nat) (cs : list (CNum p)) : Prop := Forall2 (fun i c => nth_error R i = Some c) is cs.
Lemma regs_facts U R is cs : Forall (owned U) R -> regs_are R is cs ->
  Forall (owned U) cs /\ map (fun i => nth i R czero) is = cs /\ length cs = length is /\
  forall s, map (fun i => nth i (map (ceval s) R) 0) is = map (ceval s) cs.
Proof.
  intros HR. induction 1 as [|i c is cs E _ [A1 [A2 [A3 A4]]]]; [auto|].
  destruct (reg_facts U R i c HR E) as [B1 [B2 B3]]. cbn [map length]. rewrite A2, A3, B2. repeat split; auto.
  intros s. now rewrite B3, A4.
Qed.
Lemma regs_run R is : match regs (p := p) R is with
  | Ret cs => regs_are R is cs | PPanic => ~ Forall (fun i => (i < length R)%nat) is | _ => False end.
Proof.
  unfold regs. induction is as [|i is IH]; cbn [pmapM]; [constructor|]. unfold reg at 1.
  destruct (nth_error R i) as [c|] eqn:E; cbn [unwrap plift pbind].
  - destruct (pmapM (reg R) is) as [cs| |v k|v k|x y z k]; cbn [pbind] in *; try contradiction.
    + now apply Forall2_cons.
    + intros X. apply IH. now inversion X.
  - intros X. inversion X; subst. apply nth_error_None in E. lia.
Qed.
Lemma sound_regs {B} U R is (k : list (CNum p) -> prog p B) Q :
  (forall cs, regs_are R is cs -> sound_for U (k cs) Q) -> sound_for U (pbind (regs R is) k) Q.
Proof.
  intros H s tr a H1 He Hs. pose proof (regs_run R is) as X. destruct (regs R is); try contradiction; cbn [pbind] in He.
  - apply (H _ X s tr a); auto.
  - inversion He.
Qed.
Lemma complete_regs {B} s0 U R is (k : list (CNum p) -> prog p B) Q : Forall (fun i => (i < length R)%nat) is ->
  (forall cs, regs_are R is cs -> complete_at s0 U (k cs) Q) -> complete_at s0 U (pbind (regs R is) k) Q.
Proof.
  intros Hi H tr o He. pose proof (regs_run R is) as X. destruct (regs R is); try contradiction; cbn [pbind] in He.
  apply (H _ X tr o); auto.
Qed.
Lemma sound_rpt {B} U R P (k : CPoint p -> prog p B) Q :
  (forall x y, nth_error R (fst P) = Some x -> nth_error R (snd P) = Some y -> sound_for U (k (mkP x y)) Q) -> sound_for U (pbind (rpt R P) k) Q.
Proof.
  intros H s tr a H1 He Hs. unfold rpt in He. pose proof (H) as H'. unfold reg in He.
  destruct (nth_error R (fst P)) as [x|]; cbn [unwrap plift pbind] in He; [|inversion He].
  destruct (nth_error R (snd P)) as [y|]; cbn [unwrap plift pbind] in He; [|inversion He].
  now apply (H x y eq_refl eq_refl s tr a).
Qed.
Lemma complete_rpt {B} s0 U R P (k : CPoint p -> prog p B) Q : (fst P < length R)%nat -> (snd P < length R)%nat ->
  (forall x y, nth_error R (fst P) = Some x -> nth_error R (snd P) = Some y -> complete_at s0 U (k (mkP x y)) Q) -> complete_at s0 U (pbind (rpt R P) k) Q.
Proof.
  intros L1 L2 H tr o He. unfold rpt, reg in He.
  destruct (nth_error R (fst P)) as [x|] eqn:E1; cbn [unwrap plift pbind] in He; [|apply nth_error_None in E1; lia].
  destruct (nth_error R (snd P)) as [y|] eqn:E2; cbn [unwrap plift pbind] in He; [|apply nth_error_None in E2; lia].
  now apply (H x y eq_refl eq_refl tr o).
Qed.

(** Shaping results. *)
Lemma exec_bind_o {A B} (m : prog p A) (f : A -> prog p B) : forall U tr o,
  exec U (pbind m f) tr o -> exists t1 t2 oa, tr = t1 ++ t2 /\ exec U m t1 oa /\
    match oa with Some a => exec (vars t1 U) (f a) t2 o | None => t2 = [] /\ o = None end.
Proof.
  induction m as [a| |v k IH|v k IH|x y z k IH]; intros U tr o; cbn [pbind]; intros H.
  - exists [], tr, (Some a). repeat split; auto. constructor.
  - inversion H; subst. exists [], [], None. repeat split; auto. constructor.
  - inversion H; subst. match goal with X : exec (_ :: _) _ _ _ |- _ => destruct (IH _ _ _ _ X) as [t1 [t2 [oa [-> [X1 X2]]]]] end. exists (EAlloc i v :: t1), t2, oa. repeat split; auto. now constructor.
  - inversion H; subst. match goal with X : exec (_ :: _) _ _ _ |- _ => destruct (IH _ _ _ _ X) as [t1 [t2 [oa [-> [X1 X2]]]]] end. exists (EInput i v :: t1), t2, oa. repeat split; auto. now constructor.
  - inversion H; subst. match goal with X : exec _ (pbind k f) _ _ |- _ => destruct (IH _ _ _ X) as [t1 [t2 [oa [-> [X1 X2]]]]] end. exists (EEnf x y z :: t1), t2, oa. repeat split; auto. now constructor.
Qed.
Lemma sound_map {A B} U (m : prog p A) (f : A -> B) Q : sound_for U m (fun s a => Q s (f a)) -> sound_for U (pbind m (fun a => Ret (f a))) Q.
Proof.
  intros H s tr b H1 He Hs. apply exec_bind_o in He. destruct He as [t1 [t2 [oa [-> [X1 X2]]]]]. destruct oa as [a|]; [|destruct X2; discriminate].
  inversion X2; subst. rewrite app_nil_r in Hs. now apply (H s t1 a).
Qed.
Lemma complete_map {A B} s0 U (m : prog p A) (f : A -> B) Q : complete_at s0 U m (fun s a => Q s (f a)) -> complete_at s0 U (pbind m (fun a => Ret (f a))) Q.
Proof.
  intros H tr o He. apply exec_bind_o in He. destruct He as [t1 [t2 [oa [-> [X1 X2]]]]].
  destruct (H t1 oa X1) as [s [a [A1 [A2 [A3 [-> A5]]]]]]. inversion X2; subst. rewrite app_nil_r. exists s, (f a). auto 10.
Qed.
Lemma sound_ret {A} U (a : A) (Q : (Index -> F) -> A -> Prop) : (forall s, s I0 = 1 -> Q s a) -> sound_for U (Ret a) Q.
Proof. intros H s tr b H1 He Hs. inversion He; subst. auto. Qed.
Lemma complete_ret {A} s0 U (a : A) (Q : (Index -> F) -> A -> Prop) : Q s0 a -> complete_at s0 U (Ret a) Q.
Proof. intros H tr o He. inversion He; subst. exists s0, a. split; auto. split; [intros ? ? [[]|[]]|]. split; [intros ? ? ? []|auto]. Qed.
Lemma sound_lift {A B} U (r : res A) (f : A -> B) (Q : (Index -> F) -> B -> Prop) : (forall a s, r = Ok a -> s I0 = 1 -> Q s (f a)) -> sound_for U (pbind (plift r) (fun a => Ret (f a))) Q.
Proof. destruct r as [a|]; intros H; cbn [plift pbind]; [apply sound_ret; auto|]. intros s tr b H1 He. inversion He. Qed.
Lemma complete_lift {A B} s0 U (r : res A) a (f : A -> B) (Q : (Index -> F) -> B -> Prop) : r = Ok a -> Q s0 (f a) -> complete_at s0 U (pbind (plift r) (fun a => Ret (f a))) Q.
Proof. intros -> H. cbn [plift pbind]. now apply complete_ret. Qed.
End Rules.

(** What the theorems ask of the parameters. *)
Record params_ok {p l} (sqrt : Num p -> option (Num p)) (PP : @PoseidonParams p) (J : JubJub p l) : Prop := mkPok {
  k_j : jubjub_ok J; k_8 : (8 < Zpos l)%Z; k_bits : (num_bits l < num_bits p)%nat;
  k_fp : full_bytes p = true; k_fl : full_bytes l = true;
  k_sqrt : forall a, match sqrt a with Some b => b * b = a | None => ~ is_square a end;
  k_pp : pp_ok PP; k_col : Forall (fun row => nth 0 row 0 <> 0) (ppm PP); k_f : (2 <= ppf PP)%nat; k_t : (4 <= ppt PP)%nat }.

Section Step.
Context {p l : positive} (sqrt : Num p -> option (Num p)) (PP : @PoseidonParams p) (J : JubJub p l) (H : params_ok sqrt PP J).
Notation F := (Num p).
Notation d := (jd J).
Let K := k_j _ _ _ H.
Let Hp := j_p _ K.
Let Hm1 := j_m1 _ K.
Let Hd := j_d _ K.
Let HM := j_mont _ K.
Add Field cc_field : (num_field Hp) (morphism (@num_morph p), constants [num_cst], power_tac (@num_power p) [num_pow_cst]).
Variable wit : nat -> option F.
Set Default Proof Using "Type*".

Lemma p_bits : (4 <= num_bits p)%nat.
Proof. pose proof (l_bits J K (k_8 _ _ _ H) (k_bits _ _ _ H)). pose proof (k_bits _ _ _ H). lia. Qed.
Lemma p_ge3 : (3 <= Zpos p)%Z.
Proof.
  pose proof p_bits as B. pose proof (num_bits_lower p) as X.
  assert (Y : (2 ^ 3 <= 2 ^ (Z.of_nat (num_bits p) - 1))%Z) by (apply Z.pow_le_mono_r; lia). change (2 ^ 3)%Z with 8%Z in Y. lia.
Qed.

Lemma ebits_map (s : Index -> F) cs b : map (ceval s) cs = map nbool b <-> ebits s cs b.
Proof.
  unfold ebits. split.
  - revert b. induction cs as [|c cs IH]; intros [|x b] X; cbn [map] in X; try discriminate X; [constructor|].
    assert (ceval s c = nbool x /\ map (ceval s) cs = map nbool b) as [A1 A2] by (split; congruence). constructor; auto.
  - induction 1 as [|c x cs b E _ IH]; cbn [map]; [reflexivity|]. now rewrite E, IH.
Qed.
Lemma sub_native P : insub J P -> on_curve d P /\ x_is_in_subgroup l d (e_into_extended P) = true.
Proof. intros X. split; [apply X|]. apply (proj1 (claim_C38_subgroup_meaning p l J P K (proj1 X))). exact X. Qed.
Lemma decompress_sub x T : subgroup_decompress sqrt l d x = Ok (Some T) -> insub J T /\ ex T = x.
Proof.
  intros E. destruct (subgroup_decompress_ok Hp d Hm1 Hd sqrt (k_sqrt _ _ _ H) l x (j_odd _ K)) as [o [E' X]].
  rewrite E in E'. assert (o = Some T) by congruence. subst. split; [split|]; apply X.
Qed.
Lemma wp_switch2 md s S0 (P : CPoint p) bit (Q : CPoint p) : md <> Setup -> okS s S0 -> goodP md s S0 P -> good md s S0 bit -> goodP md s S0 Q ->
  (md = Honest -> isbit (ceval s bit)) ->
  wp md s S0 (cp_switch P bit Q) (fun S1 T => goodP md s S1 T /\ (ceval s bit = 1 -> cpe s T = cpe s P) /\ (ceval s bit = 0 -> cpe s T = cpe s Q)).
Proof.
  intros Hm HS [P1 P2] Gb [Q1 Q2] HB. unfold cp_switch.
  eapply wp_use; [apply (wp_switch Hp); auto; congruence|]. cbv beta. intros S1 x I1 [Gx [X1 X0]].
  eapply wp_use; [apply (wp_switch Hp); try (eapply good_incl; eassumption); auto; [eapply okS_incl; eassumption|congruence]|].
  cbv beta. intros S2 y I2 [Gy [Y1 Y0]]. apply wp_ret. split; [split; auto; eapply good_incl; eassumption|].
  unfold cpe; cbn [px py]. split; intros E; [rewrite X1, Y1|rewrite X0, Y0]; auto.
Qed.
Lemma sound_cp_switch U P bit Q : In I0 U -> Forall (owned U) (coords P ++ bit :: coords Q) ->
  sound_for U (cp_switch P bit Q) (fun (s : Index -> F) T => (ceval s bit = 1 -> cpe s T = cpe s P) /\ (ceval s bit = 0 -> cpe s T = cpe s Q)) /\
  complete_for U (cp_switch P bit Q) (fun s => Forall (valued s) (coords P ++ bit :: coords Q) /\ (ceval s bit = 0 \/ ceval s bit = 1))
    (fun s T => Forall (valued s) (coords T) /\ (ceval s bit = 1 -> cpe s T = cpe s P) /\ (ceval s bit = 0 -> cpe s T = cpe s Q)).
Proof.
  intros H0 Ho.
  assert (G : forall md (s : Index -> F), Forall (good md s (mkst U 0)) (coords P ++ bit :: coords Q) ->
    goodP md s (mkst U 0) P /\ good md s (mkst U 0) bit /\ goodP md s (mkst U 0) Q).
  { intros md s G. apply Forall_app in G. destruct G as [GP G]. inversion G as [|? ? Gb GQ]; subst. apply good_coords in GP, GQ. auto. }
  split.
  - apply wp_sound_for; auto. intros s HS. destruct (G Sound s) as [G1 [G2 G3]]; [now apply Forall_good_sound|].
    eapply wp_mono; [apply (wp_switch2 Sound s (mkst U 0) P bit Q); auto; discriminate|]. cbv beta. tauto.
  - apply wp_complete_for; auto.
    + intros s s' E [V B]. split; [now apply (Forall_valued_ext U _ s)|]. apply Forall_app in Ho. destruct Ho as [_ Ho]. inversion Ho; subst.
      now rewrite (ceval_ext_owned U bit s s').
    + intros s HS [V B]. destruct (G Honest s) as [G1 [G2 G3]]; [auto with claims|].
      eapply wp_mono; [apply (wp_switch2 Honest s (mkst U 0) P bit Q); auto; discriminate|]. cbv beta. intros S1 T _ [X Y].
      split; auto. apply (Forall_good_valued s S1). now apply good_coords.
Qed.

Lemma sound_r1 U m (Q : (Index -> F) -> list (CNum p) -> Prop) : sound_for U m (fun s a => Q s [a]) -> sound_for U (r1 m) Q.
Proof. apply (sound_map U m (fun a => [a])). Qed.
Lemma sound_r0 U m (Q : (Index -> F) -> list (CNum p) -> Prop) : sound_for U m (fun s a => Q s []) -> sound_for U (r0 m) Q.
Proof. apply (sound_map U m (fun _ => [])). Qed.
Lemma sound_rP U m (Q : (Index -> F) -> list (CNum p) -> Prop) : sound_for U m (fun s P => Q s [px P; py P]) -> sound_for U (rP m) Q.
Proof. apply (sound_map U m (fun P => [px P; py P])). Qed.
Lemma complete_r1 s0 U m (Q : (Index -> F) -> list (CNum p) -> Prop) : complete_at s0 U m (fun s a => Q s [a]) -> complete_at s0 U (r1 m) Q.
Proof. apply (complete_map s0 U m (fun a => [a])). Qed.
Lemma complete_r0 s0 U m (Q : (Index -> F) -> list (CNum p) -> Prop) : complete_at s0 U m (fun s a => Q s []) -> complete_at s0 U (r0 m) Q.
Proof. apply (complete_map s0 U m (fun _ => [])). Qed.
Lemma complete_rP s0 U m (Q : (Index -> F) -> list (CNum p) -> Prop) : complete_at s0 U m (fun s P => Q s [px P; py P]) -> complete_at s0 U (rP m) Q.
Proof. apply (complete_map s0 U m (fun P => [px P; py P])). Qed.

Lemma bits_const (s : Index -> F) cs b : s I0 = 1 -> ebits s cs b -> Forall (fun c => forall v, as_const c = Some v -> v = 0 \/ v = 1) cs.
Proof.
  intros H1. induction 1 as [|c x cs b E _ IH]; constructor; auto. intros v Ev.
  rewrite (as_const_eval s c v H1 Ev) in E. destruct x; auto.
Qed.
Lemma const_point (s : Index -> F) (P : CPoint p) x y : s I0 = 1 -> cp_as_const P = Some (x, y) -> cpe s P = mkE x y.
Proof.
  intros H1. unfold cp_as_const, cpe. destruct (as_const (px P)) as [x'|] eqn:E1; [|discriminate]. destruct (as_const (py P)) as [y'|] eqn:E2; [|discriminate].
  intros E. inversion E; subst. now rewrite (as_const_eval s _ _ H1 E1), (as_const_eval s _ _ H1 E2).
Qed.
Lemma mux_index (x y z : bool) : Z.to_nat (bval [x; y; z]) = (Nat.b2n x + 2 * Nat.b2n y + 4 * Nat.b2n z)%nat.
Proof. destruct x, y, z; reflexivity. Qed.
Lemma Forall2_map_eq {A B C} (f : A -> C) (g : B -> C) la lb : Forall2 (fun a b => f a = g b) la lb -> map f la = map g lb.
Proof. induction 1; cbn [map]; congruence. Qed.

Ltac facts HR := repeat match goal with
  | E : nth_error ?R ?i = Some ?c |- _ => let O := fresh "O" in let N := fresh "N" in let V := fresh "V" in
      destruct (reg_facts _ R i c HR E) as [O [N V]]; clear E
  | E : regs_are ?R ?is ?cs |- _ => let O := fresh "O" in let N := fresh "N" in let L := fresh "L" in let V := fresh "V" in
      destruct (regs_facts _ R is cs HR E) as [O [N [L V]]]; clear E
  end.
Ltac put := repeat match goal with
  | N : nth ?i ?R czero = ?c |- _ => rewrite ?N in *; clear N
  | V : forall s, nth ?i (map (ceval s) ?R) 0 = _ |- _ => rewrite ?V in *; clear V
  | V : forall s, map (fun i => nth i (map (ceval s) ?R) 0) ?is = _ |- _ => rewrite ?V in *; clear V
  end.
Ltac rdS := repeat first [apply sound_reg; intros ? ? | apply sound_regs; intros ? ? | apply sound_rpt; intros ? ? ? ?].
Lemma decompress_some x : (exists Q, insub J Q /\ ex Q = x) -> exists A, subgroup_decompress sqrt l d x = Ok (Some A).
Proof.
  intros [Q [[Q1 Q2] Q3]]. destruct (subgroup_decompress_ok Hp d Hm1 Hd sqrt (k_sqrt _ _ _ H) l x (j_odd _ K)) as [[A|] [E X]]; [eauto|].
  destruct (X Q Q1 Q3 Q2).
Qed.
Ltac opn HR := try (first [apply sound_r1|apply sound_r0|apply sound_rP]); facts HR; intros w tr out H1 He Hs; cbn [means map fst snd]; cbv zeta; unfold bitsof; put.
Ltac coo := repeat apply Forall_cons; try apply Forall_nil; auto.

Lemma step_sound U R o : In I0 U -> Forall (owned U) R ->
  sound_for U (step sqrt PP J false wit R o) (fun s r => means sqrt PP J R (map (ceval s) R) o (map (ceval s) r)).
Proof.
  intros H0 HR. destruct o as [k|wn|a|a b|a b|a b|a b|a|a k|a k|k a|a k|a k|a b|a|a b|a k|a|a b|a|a|a|a b|a bit b|b|wn|a|a b|a n|a|bs|bs ct|bs table|ins|ins salt|leaf sib path|leaf|P bit Q|P|P|P Q|P|P|x|P|P|P Q|P|P bs|t|sg r a m];
    cbn [step negb orb andb passert rassert plift pbind]; rdS.
  all: try (facts HR; apply sound_ret; intros w H1; cbn [means map fst snd]; cbv zeta; put;
     first [rewrite ceval_add|rewrite ceval_add_cap|rewrite ceval_add_rv|rewrite ceval_sub|rewrite ceval_neg
       |rewrite ceval_add_num|rewrite ceval_sub_num|rewrite ceval_num_sub|rewrite ceval_mul_num|rewrite ceval_const]; solve [reflexivity|exact H1]).
  - opn HR. reflexivity.
  - opn HR. reflexivity.
  - apply sound_r1. facts HR. cbn [means map fst snd]; cbv zeta.
    destruct (cdiv_num c k) as [r|] eqn:E; cbn [plift]; [|intros w tr out _ He; inversion He].
    apply sound_ret. intros w H1. put. exists (ceval w r). split; auto. intros Hk.
    destruct (claim_C01_linear p Hp c c k) as [_ [_ [X _]]]. destruct (X Hk) as [r' [E' [X1 _]]].
    rewrite E in E'. assert (r' = r) by congruence. subst r'. rewrite ndiv_ok by auto. f_equal. rewrite <- (X1 w). field; auto.
  - opn HR. f_equal. exact (proj1 (claim_C06_mul p Hp U c c0 H0 ltac:(assumption) ltac:(assumption)) w tr out H1 He Hs).
  - opn HR. f_equal. exact (proj1 (claim_C06_mul p Hp U c c H0 O O) w tr out H1 He Hs).
  - opn HR. exists (ceval w out). split; auto. split.
    + intros N. exact (proj1 (claim_C07_div p Hp U c c0 H0 ltac:(assumption) ltac:(assumption) N) w tr out H1 He Hs).
    + intros N X. destruct (as_const c) as [k|] eqn:E; [|now destruct N]. pose proof (as_const_eval w c k H1 E) as E'.
      apply (proj1 (claim_C08_div_const_actual p Hp U c c0 k H0 ltac:(assumption) ltac:(assumption) E) ltac:(congruence) w tr out H1 He Hs).
  - opn HR. split; auto. exact (proj1 (proj1 (claim_C10_assertions p Hp U c c k H0 O O)) w tr out H1 He Hs).
  - opn HR. split; auto. exact (proj1 (proj1 (proj2 (claim_C10_assertions p Hp U c c 0 H0 O O))) w tr out H1 He Hs).
  - opn HR. split; auto. exact (proj1 (proj1 (proj2 (proj2 (claim_C10_assertions p Hp U c c0 0 H0 ltac:(assumption) ltac:(assumption))))) w tr out H1 He Hs).
  - opn HR. split; auto. exact (proj1 (proj1 (proj2 (proj2 (proj2 (claim_C10_assertions p Hp U c c 0 H0 O O))))) w tr out H1 He Hs).
  - opn HR. split; auto. exact (proj1 (proj2 (proj2 (proj2 (proj2 (claim_C10_assertions p Hp U c c 0 H0 O O))))) w tr out H1 He Hs).
  - opn HR. exists (ceval w out). split; auto. exact (proj1 (claim_C09_is_zero p Hp U c H0 O) w tr out H1 He Hs).
  - opn HR. exists (ceval w out). split; auto. exact (proj1 (claim_C09_is_eq p Hp U c c0 H0 ltac:(assumption) ltac:(assumption)) w tr out H1 He Hs).
  - opn HR. exists (ceval w out). split; auto. exact (proj1 (claim_C11_switch p Hp U c c0 c1 H0 ltac:(assumption) ltac:(assumption) ltac:(assumption)) w tr out H1 He Hs).
  - apply sound_ret. intros w H1. cbn [means map]. unfold cbconst. rewrite ceval_const by auto. now destruct b.
  - opn HR. reflexivity.
  - opn HR. split; auto. exact (proj1 (proj1 (claim_C10_booleans p Hp U c true H0 O)) w tr out H1 He Hs).
  - opn HR. split; auto. exact (proj1 (proj1 (proj2 (claim_C10_booleans p Hp U c b H0 O))) w tr out H1 He Hs).
  - opn HR. intros Hn. destruct (claim_C15_into_bits_sound p Hp U c n H0 O Hn w tr out H1 He Hs) as [b [L [E [V0 X]]]].
    exists b. split; [auto|split; [now apply ebits_map|split; [auto|]]]. intros B. destruct (X B) as [_ [X2 X3]]. auto.
  - opn HR. apply ebits_map. exact (proj1 (claim_C16_into_bits_strict p Hp U c H0 O p_bits) w tr out H1 He Hs).
  - apply sound_r1. facts HR. cbn [means map fst snd]; cbv zeta.
    destruct (claim_C19_from_bits p Hp cs) as [X1 X2]. destruct cs as [|c0 cs0] eqn:Ec.
    + rewrite X2 by auto. intros w tr out _ He; inversion He.
    + destruct X1 as [r [E X]]; [discriminate|]. rewrite E. cbn [plift]. apply sound_ret. intros w H1. exists (ceval w r). split; auto.
      unfold bitsof. put. intros b Eb. apply X; auto; [|apply ebits_map; exact Eb]. eapply Forall_impl; [|exact O]. intros y Y. apply Y.
  - opn HR. exists (ceval w out). split; auto. rewrite <- L. intros B b Eb.
    refine (claim_C18_comp_constant_actual p Hp U cs ct H0 O p_ge3 B w tr out H1 He Hs b _). apply ebits_map. exact Eb.
  - opn HR. intros b Eb. apply ebits_map in Eb.
    destruct (Nat.eq_dec (length cs) 3) as [E3|N3].
    + rewrite <- L. split; auto. destruct cs as [|b0 [|b1 [|b2 [|? ?]]]]; try discriminate E3.
      inversion_clear Eb as [|? x ? b' B0 Eb']. inversion_clear Eb' as [|? y ? b'' B1 Eb'']. inversion_clear Eb'' as [|? z ? b3 B2 Eb3]. inversion_clear Eb3.
      inversion O as [|? ? O0 O']; subst. inversion O' as [|? ? O1 O'']; subst. inversion O'' as [|? ? O2 _]; subst.
      rewrite mux_index. apply Forall2_map_eq.
      exact (proj1 (claim_C20_mux3 p Hp U b0 b1 b2 table H0 O0 O1 O2) x y z w tr out H1 He Hs B0 B1 B2).
    + assert (X : c_mux3 cs table = PPanic).
      { destruct (claim_C20_mux3 p Hp [I0] czero czero czero [] (or_introl eq_refl)) as [_ [_ [_ X]]].
        1-3: apply (wf_const (mkst [I0] 0)); now left.
        destruct cs as [|b0 [|b1 [|b2 [|? ?]]]]; try reflexivity. now destruct N3. }
      rewrite X in He. inversion He.
  - opn HR. exists (ceval w out). split; auto. exact (proj1 (claim_C21_poseidon p Hp U PP cs H0 O) w tr out H1 He Hs).
  - opn HR. exists (ceval w out). split; auto. exact (proj1 (proj1 (claim_C22_poseidon_with_salt p Hp U PP cs salt H0 O)) w tr out H1 He Hs).
  - opn HR. exists (ceval w out). split; auto. rewrite <- L, <- L0. intros Lp b Eb.
    refine (proj1 (claim_C24_merkle_proof p Hp U PP c cs cs0 H0 _ _ _ _) w tr out H1 He Hs b _); auto. now apply ebits_map.
  - opn HR. exists (ceval w out). split; auto. exact (proj1 (claim_C26_tree_root_circuit p Hp U PP cs H0 O) w tr out H1 He Hs).
  - opn HR. exists (cpe w out). split; auto. refine (proj1 (sound_cp_switch U _ _ _ H0 _) w tr out H1 He Hs). cbn. coo.
  - opn HR. exists (cpe w out). split; auto. intros [N1 N2] C.
    refine (proj2 (proj1 (claim_C37_double p l J U _ K H0 _ _) w tr out H1 He Hs C)); coo.
  - opn HR. exists (cpe w out). split; auto. intros [N1 N2] C.
    refine (proj2 (proj1 (claim_C37_cofactor p l J U _ K H0 _ _) w tr out H1 He Hs C)); coo.
  - opn HR. exists (cpe w out). split; auto. intros [N1 N2] [N3 N4] C C'.
    refine (proj2 (proj1 (claim_C37_add p l J U _ _ K H0 _ _) w tr out H1 He Hs (conj C C'))); cbn; coo.
  - opn HR. split; auto. apply e_is_in_curve_iff.
    refine (proj1 (claim_C38_in_curve p l J U _ K H0 _) w tr out H1 He Hs); coo.
  - opn HR. split; auto. apply sub_native.
    refine (proj1 (claim_C38_in_subgroup p l J U _ K H0 _) w tr out H1 He Hs); coo.
  - opn HR. exists (cpe w out). split; auto. intros N.
    refine (proj2 (proj2 (proj2 (proj1 (claim_C39_decompress p l J sqrt U c K (k_sqrt _ _ _ H) H0 O N) w tr out H1 He Hs)))).
  - opn HR. exists (cpm w out). split; auto. intros [N1 N2] C D.
    refine (proj1 (proj1 (claim_C79_into_montgomery p l J U _ K H0 _ _) w tr out H1 He Hs (conj C D))); coo.
  - opn HR. exists (cpm w out). split; auto. intros [N1 N2] C D.
    assert (X : exists A, m_into_affine (mkM (ceval w x) (ceval w y)) = Ok A /\ e_into_montgomery (eadd d A A) = Ok (Some (cpm w out)) /\ on_curve d A).
    { unshelve epose proof (proj1 (claim_C79_double p l J U (mkP x y) K H0 _ _) w tr out H1 He Hs (conj C D)) as [_ [A [X1 [X2 _]]]]; coo.
      exists A. split; [exact X1|split; [exact X2|]]. exact (proj1 (affine_native J _ A K C X1)). }
    destruct X as [A [X1 [X2 X3]]]. exists A, (eadd d A A). rewrite (e_double_ok Hp d Hm1 Hd A X3). auto.
  - opn HR. exists (cpm w out). split; auto. intros N1 N2 C C' D D'.
    assert (X : exists A B, m_into_affine (mkM (ceval w x) (ceval w y)) = Ok A /\ m_into_affine (mkM (ceval w x0) (ceval w y0)) = Ok B /\
      e_into_montgomery (eadd d A B) = Ok (Some (cpm w out)) /\ on_curve d A /\ on_curve d B).
    { unshelve epose proof (proj1 (claim_C79_add p l J U (mkP x y) (mkP x0 y0) K H0 _ N1 N2) w tr out H1 He Hs (conj C (conj C' (conj D D')))) as [_ [A [B [X1 [X2 [X3 _]]]]]]; [cbn; coo|].
      exists A, B. split; [exact X1|split; [exact X2|split; [exact X3|]]]. split; [exact (proj1 (affine_native J _ A K C X1))|exact (proj1 (affine_native J _ B K C' X2))]. }
    destruct X as [A [B [X1 [X2 [X3 [X4 X5]]]]]]. exists A, B, (eadd d A B). rewrite (e_add_ok Hp d Hm1 Hd A B X4 X5). auto.
  - opn HR. exists (cpe w out). split; auto. intros [N1 N2] C.
    refine (proj1 (proj1 (claim_C79_into_edwards p l J U _ K H0 _ _) w tr out H1 He Hs C)); coo.
  - opn HR. exists (cpe w out). split; auto. assert (NN : map (fun i => nth i R czero) bs = cs) by assumption. intros N' S0 b Eb. apply ebits_map in Eb. destruct N' as [[[Na Nb] X]|[X Fr]].
    + refine (proj2 (proj1 (claim_C40_mul p l J U (mkP x y) cs b K H0 _ _ _ _) w tr out H1 He Hs (conj S0 Eb))); [cbn; coo|coo| |now apply (bits_const w cs b)].
      rewrite <- NN. now apply Exists_map.
    + rewrite NN in Fr. destruct (cp_as_const (mkP x y)) as [[kx ky]|] eqn:Ec; [|now destruct X].
      pose proof (const_point w _ _ _ H1 Ec) as E. unfold cpe in E. cbn [px py] in E. rewrite E in *.
      exact (proj2 (proj1 (claim_C41_mul p l J U (mkP x y) kx ky cs b K (k_8 _ _ _ H) H0 ltac:(assumption) Ec S0 Fr) w tr out H1 He Hs Eb)).
  - opn HR. exists (cpe w out). split; auto. intros N.
    exact (proj1 (claim_C43_from_scalar p l J sqrt U c K p_bits (k_sqrt _ _ _ H) H0 O N) w tr out H1 He Hs).
  - opn HR. exists (ceval w out). split; auto. intros N1 N2 N3 N4.
    pose proof (k_bits _ _ _ H) as J3. pose proof (k_fp _ _ _ H) as J4. pose proof (k_fl _ _ _ H) as J5. pose proof (k_sqrt _ _ _ H) as J6.
    pose proof (k_pp _ _ _ H) as J7. pose proof (k_col _ _ _ H) as J8. pose proof (k_f _ _ _ H) as J9. pose proof (k_t _ _ _ H) as J10.
    unshelve epose proof (proj1 (claim_C44_verify p l J PP sqrt U c c0 c1 c2 K (k_8 _ _ _ H) J3 J4 J5 J6 J7 J8 J9 J10 H0 _ _) w tr out H1 He Hs) as [X1 [X2 [X3 X4]]]; coo.
    split; [exact X1|]. split; [|split; [|exact X4]]; apply decompress_some; auto.
Qed.
Lemma reg_val s0 (R : list (CNum p)) i c : Forall (valued s0) R -> nth_error R i = Some c -> valued s0 c.
Proof. intros HV E. rewrite Forall_forall in HV. apply HV. eapply nth_error_In; eauto. Qed.
Lemma regs_val s0 (R : list (CNum p)) is cs : Forall (valued s0) R -> regs_are R is cs -> Forall (valued s0) cs.
Proof. intros HV. induction 1 as [|i c is cs E _ IH]; constructor; auto. now apply (reg_val s0 R i). Qed.
Ltac vals HV := repeat match goal with
  | E : nth_error ?R ?i = Some ?c |- _ => lazymatch goal with Z : valued _ c |- _ => fail | _ => pose proof (reg_val _ R i c HV E) end
  | E : regs_are ?R ?is ?cs |- _ => lazymatch goal with Z : Forall (valued _) cs |- _ => fail | _ => pose proof (regs_val _ R is cs HV E) end
  end.
Ltac rdC := repeat first [apply complete_reg; [tauto|intros ? ?] | apply complete_regs; [tauto|intros ? ?] | apply complete_rpt; [tauto|tauto|intros ? ? ? ?]].
Ltac opc HR HV Rd := try (first [apply complete_r1|apply complete_r0|apply complete_rP]); vals HV; facts HR; cbn [map fst snd] in Rd; cbv zeta in Rd; unfold bitsof in Rd; put.
Ltac fin := let X := fresh "X" in intros w out _ _ X; repeat apply Forall_cons; try apply Forall_nil; try (apply X).
Ltac finP := let X := fresh "X" in intros w out _ _ [X _]; exact X.

Lemma wp_inputize_honest U (a : CNum p) : In I0 U -> owned U a -> complete_for U (cinputize a) (fun s => valued s a) (fun _ _ => True).
Proof.
  intros H0 Ho. apply wp_complete_for; auto.
  - intros s s' E. now apply (valued_ext U).
  - intros s [_ HS] V. unfold cinputize.
    assert (Kk : forall v c, v = Some (ceval s c) -> wp Honest s (mkst U 0) (i <-- calloc_input v ;; enforce i cone c) (fun _ _ => True)).
    { intros v c Ev. unfold calloc_input, enforce. cbn [pbind]. cbn [wp]. split; [intros _; now rewrite Ev|]. intros i Hi Hh. split; [|exact (fun _ => I)].
      intros _. unfold holds. rewrite ceval_var, ceval_one by auto. specialize (Hh eq_refl). rewrite Ev in Hh. assert (ceval s c = s i) as -> by congruence. ring. }
    destruct (as_const a) as [v|] eqn:E; apply Kk; auto. now rewrite ceval_const.
Qed.
Lemma calloc_honest U (v : option F) : v <> None -> In I0 U -> complete_for U (calloc v) (fun _ => True) (fun s c => valued s c).
Proof.
  intros Hv H0. apply wp_complete_for; auto. intros s HS _. apply (wp_calloc Hp); auto.
  intros i Hi S1 r _ Ev E _ _. unfold valued. rewrite E. subst r. cbn [cvar cvalue]. auto.
Qed.
Lemma comp_constant_honest U (cs : list (CNum p)) ct : In I0 U -> Forall (owned U) cs ->
  (2 ^ Z.of_nat ((Nat.div2 (length cs) + length cs mod 2) + 1) <= Zpos p)%Z -> (0 < length cs <= 64 * num_limbs p)%nat ->
  complete_for U (c_comp_constant cs ct) (fun s => Forall (valued s) cs /\ exists b, ebits s cs b) (fun s r => valued s r).
Proof.
  intros H0 Ho B L. apply wp_complete_for; auto.
  - intros s s' E [V [b Eb]]. split; [now apply (Forall_valued_ext U _ s)|]. exists b. clear V L B. revert Ho.
    induction Eb as [|c x cs' b' Ec Eb IH]; intros Ho; [constructor|]. inversion Ho; subst. constructor; [now rewrite (ceval_ext_owned U c s s')|now apply IH].
  - intros s HS [V Eb]. eapply wp_mono; [apply (wp_comp_constant Hp); auto with claims; try discriminate|].
    + apply (prime_odd Hp). pose proof p_ge3. lia.
    + cbv beta. intros S1 r _ [[_ G] _]. exact G.
Qed.

Hypothesis Hw : forall n, wit n <> None.
Lemma step_complete s0 U R o : In I0 U -> s0 I0 = 1 -> Forall (owned U) R -> Forall (valued s0) R -> ready sqrt PP J R (map (ceval s0) R) o ->
  complete_at s0 U (step sqrt PP J false wit R o) (fun s r => Forall (valued s) r).
Proof.
  intros H0 H1 HR HV [Ra Rd].
  assert (HS : okS s0 (mkst U 0)) by (split; auto).
  destruct o as [k|wn|a|a b|a b|a b|a b|a|a k|a k|k a|a k|a k|a b|a|a b|a k|a|a b|a|a|a|a b|a bit b|b|wn|a|a b|a n|a|bs|bs ct|bs table|ins|ins salt|leaf sib path|leaf|P bit Q|P|P|P Q|P|P|x|P|P|P Q|P|P bs|t|sg r a m];
    cbn [step negb orb andb passert rassert plift pbind]; cbn [args flat_map fst snd app] in Ra; rewrite ?Forall_cons_iff, ?Forall_app in Ra; rdC; clear Ra.
  all: try (opc HR HV Rd; apply complete_ret; repeat constructor; match goal with |- valued _ ?c => apply (good_valued s0 (mkst U 0)) end;
     first [apply good_add_num|apply good_sub_num|apply good_num_sub|apply good_mul_num|apply good_const|apply good_add_cap|apply good_add_rv|apply good_add|apply good_sub|apply good_neg];
     solve [auto with claims]).
  - apply complete_r1. apply (complete_use s0 U _ _ _ _ H0 H1 (calloc_honest U (wit wn) (Hw wn) H0) I). fin.
  - opc HR HV Rd. apply (complete_use s0 U _ _ _ _ H0 H1 (wp_inputize_honest U c H0 O)); auto.
  - apply complete_r1. vals HV. facts HR. put. pose proof (cdiv_num_ok c k Rd) as E. rewrite E. cbn [plift]. apply complete_ret. constructor; [|constructor].
    apply (good_valued s0 (mkst U 0)). apply (good_divn Hp); auto with claims.
  - opc HR HV Rd. apply (complete_use s0 U _ _ _ _ H0 H1 (proj1 (proj2 (claim_C06_mul p Hp U c c0 H0 ltac:(assumption) ltac:(assumption))))); auto. fin.
  - opc HR HV Rd. apply (complete_use s0 U _ _ _ _ H0 H1 (proj1 (proj2 (claim_C06_mul p Hp U c c H0 ltac:(assumption) ltac:(assumption))))); auto. fin.
  - opc HR HV Rd. destruct Rd as [N D]. apply (complete_use s0 U _ _ _ _ H0 H1 (proj1 (proj2 (claim_C07_div p Hp U c c0 H0 ltac:(assumption) ltac:(assumption) N)))); auto. fin.
  - opc HR HV Rd. apply (complete_use s0 U _ _ _ _ H0 H1 (proj2 (proj1 (claim_C10_assertions p Hp U c c k H0 O O)))); auto.
  - opc HR HV Rd. apply (complete_use s0 U _ _ _ _ H0 H1 (proj2 (proj1 (proj2 (claim_C10_assertions p Hp U c c 0 H0 O O))))); auto.
  - opc HR HV Rd. apply (complete_use s0 U _ _ _ _ H0 H1 (proj2 (proj1 (proj2 (proj2 (claim_C10_assertions p Hp U c c0 0 H0 ltac:(assumption) ltac:(assumption))))))); auto.
  - opc HR HV Rd. apply (complete_use s0 U _ _ _ _ H0 H1 (proj2 (proj1 (proj2 (proj2 (proj2 (claim_C10_assertions p Hp U c c 0 H0 O O))))))); auto.
  - opc HR HV Rd. apply (complete_use s0 U _ _ _ _ H0 H1 (proj2 (proj2 (proj2 (proj2 (proj2 (claim_C10_assertions p Hp U c c 0 H0 O O))))))); auto.
  - opc HR HV Rd. apply (complete_use s0 U _ _ _ _ H0 H1 (proj1 (proj2 (claim_C09_is_zero p Hp U c H0 O)))); auto. fin.
  - opc HR HV Rd. apply (complete_use s0 U _ _ _ _ H0 H1 (proj2 (claim_C09_is_eq p Hp U c c0 H0 ltac:(assumption) ltac:(assumption)))); auto. fin.
  - opc HR HV Rd. apply (complete_use s0 U _ _ _ _ H0 H1 (proj1 (proj2 (claim_C11_switch p Hp U c c0 c1 H0 ltac:(assumption) ltac:(assumption) ltac:(assumption))))); auto. fin.
  - apply complete_r1. unfold cballoc. refine (complete_use s0 U _ _ _ _ H0 H1 (calloc_honest U _ _ H0) I _); [|fin].
    specialize (Hw wn). destruct (wit wn); [cbn; discriminate|congruence].
  - opc HR HV Rd. apply (complete_use s0 U _ _ _ _ H0 H1 (proj2 (proj1 (claim_C10_booleans p Hp U c true H0 O)))); auto.
  - opc HR HV Rd. apply (complete_use s0 U _ _ _ _ H0 H1 (proj2 (proj1 (proj2 (claim_C10_booleans p Hp U c b H0 O))))); auto.
  - opc HR HV Rd. destruct Rd as [Hn Hb]. apply (complete_use s0 U _ _ _ _ H0 H1 (proj1 (claim_C15_into_bits_complete p Hp U c n H0 O Hn))); auto. finP.
  - opc HR HV Rd. apply (complete_use s0 U _ _ _ _ H0 H1 (proj1 (proj2 (claim_C16_into_bits_strict p Hp U c H0 O p_bits)))); auto. finP.
  - apply complete_r1. vals HV. facts HR. destruct (c_from_bits_le cs) as [r|] eqn:E; cbn [plift].
    + apply complete_ret. constructor; [|constructor]. apply (good_valued s0 (mkst U 0)). apply (good_from_bits Hp Honest s0 (mkst U 0) cs r); auto with claims.
    + exfalso. destruct (claim_C19_from_bits p Hp cs) as [X _]. destruct X as [r [E' _]]; [|congruence]. intros ->. destruct bs; [now apply Rd|discriminate].
  - opc HR HV Rd. rewrite <- L in Rd. destruct Rd as [B [_ [Lb [b Eb]]]].
    apply (complete_use s0 U _ _ _ _ H0 H1 (comp_constant_honest U cs ct H0 O B Lb)); [|fin]. split; auto. exists b. now apply ebits_map.
  - opc HR HV Rd. rewrite <- L in Rd. destruct Rd as [E3 Ft]. destruct cs as [|b0 [|b1 [|b2 [|? ?]]]]; try discriminate E3.
    rewrite !Forall_cons_iff in O. destruct O as [O0 [O1 [O2 _]]].
    match goal with Z : Forall (valued s0) [_; _; _] |- _ => rewrite !Forall_cons_iff in Z; destruct Z as [V0 [V1 [V2 _]]] end.
    apply (complete_use s0 U _ _ _ _ H0 H1 (proj1 (proj2 (claim_C20_mux3 p Hp U b0 b1 b2 table H0 O0 O1 O2)) Ft)); auto. finP.
  - opc HR HV Rd. rewrite <- L in Rd. apply (complete_use s0 U _ _ _ _ H0 H1 (proj1 (proj2 (claim_C21_poseidon p Hp U PP cs H0 O)) (conj (k_pp _ _ _ H) Rd))); auto. fin.
  - opc HR HV Rd. rewrite <- L in Rd. apply (complete_use s0 U _ _ _ _ H0 H1 (proj1 (proj2 (proj1 (claim_C22_poseidon_with_salt p Hp U PP cs salt H0 O))) (conj (k_pp _ _ _ H) Rd))); auto. fin.
  - opc HR HV Rd. rewrite <- L, <- L0 in Rd. destruct Rd as [Lp [b Eb]].
    assert (T2 : pp_ok PP /\ (2 <= ppt PP)%nat) by (split; [apply (k_pp _ _ _ H)|pose proof (k_t _ _ _ H); lia]).
    refine (complete_use s0 U _ _ _ _ H0 H1 (proj1 (proj2 (claim_C24_merkle_proof p Hp U PP c cs cs0 H0 _ _ _ _)) T2) _ _); auto; [|fin].
    repeat split; auto. exists b. now apply ebits_map.
  - opc HR HV Rd. assert (Lp : (0 < length cs)%nat) by (rewrite L; destruct leaf; [now destruct Rd|cbn; lia]).
    assert (T2 : pp_ok PP /\ (2 <= ppt PP)%nat /\ (0 < length cs)%nat) by (split; [apply (k_pp _ _ _ H)|pose proof (k_t _ _ _ H); lia]).
    apply (complete_use s0 U _ _ _ _ H0 H1 (proj1 (proj2 (claim_C26_tree_root_circuit p Hp U PP cs H0 O)) T2)); auto. fin.
  - opc HR HV Rd. refine (complete_use s0 U _ _ _ _ H0 H1 (proj2 (sound_cp_switch U _ _ _ H0 _)) _ _); [cbn; coo|split; [cbn; coo|exact Rd]|finP].
  - opc HR HV Rd. destruct Rd as [[N1 N2] C]. refine (complete_use s0 U _ _ _ _ H0 H1 (proj1 (proj2 (claim_C37_double p l J U _ K H0 _ _))) _ _); [coo..|split; [coo|exact C]|finP].
  - opc HR HV Rd. destruct Rd as [[N1 N2] C]. refine (complete_use s0 U _ _ _ _ H0 H1 (proj1 (proj2 (claim_C37_cofactor p l J U _ K H0 _ _))) _ _); [coo..|split; [coo|exact C]|finP].
  - opc HR HV Rd. destruct Rd as [[N1 N2] [[N3 N4] [C C']]]. refine (complete_use s0 U _ _ _ _ H0 H1 (proj1 (proj2 (claim_C37_add p l J U _ _ K H0 _ _))) _ _); [cbn; coo..|split; [cbn; coo|split; [exact C|exact C']]|finP].
  - opc HR HV Rd. refine (complete_use s0 U _ _ _ _ H0 H1 (proj1 (proj2 (claim_C38_in_curve p l J U _ K H0 _))) _ _); [coo|split; [coo|exact Rd]|auto].
  - opc HR HV Rd. refine (complete_use s0 U _ _ _ _ H0 H1 (proj1 (proj2 (claim_C38_in_subgroup p l J U _ K H0 _))) _ _); [coo|split; [coo|exact Rd]|auto].
  - opc HR HV Rd. destruct Rd as [N [T ET]]. apply (complete_use s0 U _ _ _ _ H0 H1 (proj1 (proj2 (claim_C39_decompress p l J sqrt U c K (k_sqrt _ _ _ H) H0 O N)))); [|finP].
    split; [coo|]. exists T. now apply decompress_sub.
  - opc HR HV Rd. destruct Rd as [[N1 N2] [C D]]. refine (complete_use s0 U _ _ _ _ H0 H1 (proj1 (proj2 (claim_C79_into_montgomery p l J U _ K H0 _ _))) _ _); [coo..|split; [coo|split; [exact C|exact D]]|finP].
  - opc HR HV Rd. destruct Rd as [[N1 N2] [C D]]. refine (complete_use s0 U _ _ _ _ H0 H1 (proj1 (proj2 (claim_C79_double p l J U _ K H0 _ _))) _ _); [coo..|split; [coo|split; [exact C|exact D]]|finP].
  - opc HR HV Rd. destruct Rd as [N1 [N2 X]]. refine (complete_use s0 U _ _ _ _ H0 H1 (proj1 (proj2 (claim_C79_add p l J U (mkP x y) (mkP x0 y0) K H0 _ N1 N2))) _ _); [cbn; coo|split; [cbn; coo|exact X]|finP].
  - opc HR HV Rd. destruct Rd as [[N1 N2] C]. refine (complete_use s0 U _ _ _ _ H0 H1 (proj1 (proj2 (claim_C79_into_edwards p l J U _ K H0 _ _))) _ _); [coo..|split; [coo|exact C]|finP].
  - opc HR HV Rd. assert (NN : map (fun i => nth i R czero) bs = cs) by assumption. destruct Rd as [N' [S0 [b Eb]]]. apply ebits_map in Eb. destruct N' as [[[Na Nb] X]|[X Fr]].
    + refine (complete_use s0 U _ _ _ _ H0 H1 (proj1 (proj2 (claim_C40_mul p l J U (mkP x y) cs b K H0 _ _ _ _))) _ _);
        [cbn; coo|coo|rewrite <- NN; now apply Exists_map|now apply (bits_const s0 cs b)|split; [cbn; coo|split; [exact S0|exact Eb]]|finP].
    + rewrite NN in Fr. destruct (cp_as_const (mkP x y)) as [[kx ky]|] eqn:Ec; [|now destruct X].
      pose proof (const_point s0 _ _ _ H1 Ec) as E. unfold cpe in E. cbn [px py] in E. rewrite E in *.
      apply (complete_use s0 U _ _ _ _ H0 H1 (proj1 (proj2 (claim_C41_mul p l J U (mkP x y) kx ky cs b K (k_8 _ _ _ H) H0 ltac:(assumption) Ec S0 Fr)))); [auto|finP].
  - opc HR HV Rd. destruct Rd as [N D]. apply (complete_use s0 U _ _ _ _ H0 H1 (proj1 (proj2 (claim_C43_from_scalar p l J sqrt U c K p_bits (k_sqrt _ _ _ H) H0 O N)))); [split; [coo|exact D]|finP].
  - opc HR HV Rd. destruct Rd as [[N1 [N2 [N3 N4]]] [Bd [[TA DA] [TB DB]]]].
    pose proof (k_bits _ _ _ H) as J3. pose proof (k_fp _ _ _ H) as J4. pose proof (k_fl _ _ _ H) as J5. pose proof (k_sqrt _ _ _ H) as J6.
    pose proof (k_pp _ _ _ H) as J7. pose proof (k_col _ _ _ H) as J8. pose proof (k_f _ _ _ H) as J9. pose proof (k_t _ _ _ H) as J10.
    refine (complete_use s0 U _ _ _ _ H0 H1 (proj1 (proj2 (claim_C44_verify p l J PP sqrt U c c0 c1 c2 K (k_8 _ _ _ H) J3 J4 J5 J6 J7 J8 J9 J10 H0 _ _))) _ _); [coo..| |finP].
    split; [coo|]. split; [exact Bd|]. split; [exists TA|exists TB]; now apply decompress_sub.
Qed.
End Step.
Unset Default Proof Using.

(** Whole circuits. [Rs] are the results of the calls, in order; the registers
    before call [k] are [concat (firstn k Rs)]. *)
Section Whole.
Context {p l : positive} (sqrt : Num p -> option (Num p)) (PP : @PoseidonParams p) (J : JubJub p l).
Notation F := (Num p).
(** The values an allocation takes from the witness. *)
Definition takes (wit : nat -> option F) (o : @op p) (out : list F) : Prop :=
  match o with
  | oAlloc w => map Some out = [wit w]
  | oBAlloc w => map Some out = [option_map (fun v => if nis_zero v then 0 else 1) (wit w)]
  | _ => True
  end.
Definition meets (s : Index -> F) (ops : list (@op p)) (Rs : list (list (CNum p))) : Prop :=
  length Rs = length ops /\
  forall k o r, nth_error ops k = Some o -> nth_error Rs k = Some r ->
    let R := concat (firstn k Rs) in means sqrt PP J R (map (ceval s) R) o (map (ceval s) r).
Definition draws (wit : nat -> option F) (s : Index -> F) (ops : list (@op p)) (Rs : list (list (CNum p))) : Prop :=
  forall k o r, nth_error ops k = Some o -> nth_error Rs k = Some r -> takes wit o (map (ceval s) r).

Fixpoint meets_from (s : Index -> F) (R : list (CNum p)) (ops : list (@op p)) (Rs : list (list (CNum p))) : Prop :=
  match ops, Rs with
  | [], [] => True
  | o :: ops', r :: Rs' => means sqrt PP J R (map (ceval s) R) o (map (ceval s) r) /\ meets_from s (R ++ r) ops' Rs'
  | _, _ => False
  end.
Lemma meets_from_ok s ops : forall R Rs, meets_from s R ops Rs -> length Rs = length ops /\
  forall k o r, nth_error ops k = Some o -> nth_error Rs k = Some r ->
    means sqrt PP J (R ++ concat (firstn k Rs)) (map (ceval s) (R ++ concat (firstn k Rs))) o (map (ceval s) r).
Proof.
  induction ops as [|o ops IH]; intros R [|r Rs]; cbn [meets_from]; try tauto.
  - intros _. split; auto. intros [|k]; discriminate.
  - intros [M H]. destruct (IH _ _ H) as [L X]. cbn [length]. split; [lia|]. intros [|k] o' r'; cbn [nth_error firstn concat].
    + intros E1 E2. inversion E1; inversion E2; subst. now rewrite app_nil_r.
    + intros E1 E2. rewrite app_assoc. now apply X.
Qed.

Context (H : params_ok sqrt PP J) (wit : nat -> option F).
Let Hp := j_p _ (k_j _ _ _ H).

Lemma step_owned U R o tr r : In I0 U -> Forall (owned U) R -> exec U (step sqrt PP J false wit R o) tr (Some r) ->
  Forall (owned (vars tr U)) r /\ forall a b c, In (EEnf a b c) tr -> owned (vars tr U) a /\ owned (vars tr U) b /\ owned (vars tr U) c.
Proof using H.
  intros H0 HR He.
  assert (X : alw Sound (fun _ => 1) (mkst U 0) (step sqrt PP J false wit R o) (fun S1 r => Forall (good Sound (fun _ => 1) S1) r)).
  { apply (alw_step_op Hp); try discriminate; [split; auto|auto with claims]. }
  destruct (alw_run Sound _ _ _ _ _ _ _ X He) as [T1 T2]; [discriminate|]. split.
  - specialize (T2 r eq_refl). eapply Forall_impl; [|exact T2]. intros c [W _]. exact W.
  - intros a b c Hin. destruct (T1 a b c Hin) as [[A1 _] [[A2 _] [A3 _]]]. split; [exact A1|]. split; [exact A2|exact A3].
Qed.
Lemma owned_incl U U' (c : CNum p) : incl U U' -> owned U c -> owned U' c.
Proof. intros I [A B]. split; auto. intros k v Hk. apply I. eauto. Qed.

Lemma vars_in (tr : list (event p)) : forall U i v, In (EAlloc i v) tr \/ In (EInput i v) tr -> In i (vars tr U).
Proof.
  induction tr as [|[j w|j w|a b c] tr IH]; intros U i v; cbn [In vars]; [tauto| | |].
  - intros [[E|Hin]|[E|Hin]]; [inversion E; subst; apply vars_incl; now left|apply (IH _ i v); auto|discriminate|apply (IH _ i v); auto].
  - intros [[E|Hin]|[E|Hin]]; [discriminate|apply (IH _ i v); auto|inversion E; subst; apply vars_incl; now left|apply (IH _ i v); auto].
  - intros [[E|Hin]|[E|Hin]]; [discriminate|apply (IH _ i v); auto|discriminate|apply (IH _ i v); auto].
Qed.
Lemma step_takes U R o tr r s : exec U (step sqrt PP J false wit R o) tr (Some r) -> honest s tr -> takes wit o (map (ceval s) r).
Proof.
  destruct o; cbn [takes]; auto; cbn [step]; intros He Hh; unfold r1, cballoc in He; apply exec_bind in He; destruct He as [t1 [t2 [c [-> [X1 X2]]]]];
    inversion X2; subst; cbn [calloc] in X1; inversion X1; subst;
    match goal with X : exec _ (Ret _) _ _ |- _ => inversion X; subst end;
    cbn [map]; rewrite ceval_var; f_equal; symmetry.
  - apply (Hh i). left. now left.
  - pose proof (Hh i _ (or_introl (or_introl eq_refl))) as E. rewrite <- E. destruct (wit w) as [v|]; cbn; auto. now destruct (nis_zero v).
Qed.
Lemma circuit_sound ops : forall U R tr R' s, In I0 U -> Forall (owned U) R ->
  exec U (circuit sqrt PP J false wit ops R) tr (Some R') -> s I0 = 1 -> sat s tr ->
  exists Rs, R' = R ++ concat Rs /\ meets_from s R ops Rs /\ (honest s tr -> draws wit s ops Rs).
Proof using H.
  induction ops as [|o ops IH]; intros U R tr R' s H0 HR He H1 Hs; cbn [circuit] in He.
  - inversion He; subst. exists []. cbn. rewrite app_nil_r. split; auto. split; auto. intros _ [|k]; discriminate.
  - apply exec_bind in He. destruct He as [t1 [t2 [r [-> [X1 X2]]]]].
    assert (S1 : sat s t1) by (intros a b c Hin; apply Hs; apply in_or_app; auto).
    assert (S2 : sat s t2) by (intros a b c Hin; apply Hs; apply in_or_app; auto).
    destruct (step_owned U R o t1 r H0 HR X1) as [O1 _].
    destruct (IH (vars t1 U) (R ++ r) t2 R' s) as [Rs [E [M D]]]; auto.
    + now apply vars_incl.
    + apply Forall_app. split; auto. eapply Forall_impl; [|exact HR]. intros c. apply owned_incl, vars_incl.
    + exists (r :: Rs). cbn [concat meets_from]. rewrite app_assoc. split; auto. split; [split; auto|].
      * exact (step_sound sqrt PP J H wit U R o H0 HR s t1 r H1 X1 S1).
      * intros Hh. assert (Hh1 : honest s t1) by (intros i v Hin; apply Hh; rewrite !in_app_iff; tauto).
        assert (Hh2 : honest s t2) by (intros i v Hin; apply Hh; rewrite !in_app_iff; tauto).
        intros [|k] o2 r2; cbn [nth_error]; intros E1 E2; [inversion E1; inversion E2; subst|now apply (D Hh2 k)].
        exact (step_takes U R o2 t1 r2 s X1 Hh1).
Qed.

Definition agrees (U : list Index) (s s' : Index -> F) : Prop := forall i, In i U -> s' i = s i.
Lemma circuit_complete ops : (forall n, wit n <> None) -> forall U R s0, In I0 U -> s0 I0 = 1 -> Forall (owned U) R -> Forall (valued s0) R ->
  (forall k o tr1 Rs s, nth_error ops k = Some o -> exec U (circuit sqrt PP J false wit (firstn k ops) R) tr1 (Some (R ++ concat Rs)) ->
     agrees U s0 s -> honest s tr1 -> sat s tr1 -> meets_from s R (firstn k ops) Rs -> (forall j o r, nth_error (firstn k ops) j = Some o -> nth_error Rs j = Some r -> takes wit o (map (ceval s) r)) ->
     ready sqrt PP J (R ++ concat Rs) (map (ceval s) (R ++ concat Rs)) o) ->
  forall tr o, exec U (circuit sqrt PP J false wit ops R) tr o ->
  exists s R', agrees U s0 s /\ honest s tr /\ sat s tr /\ o = Some R'.
Proof using H.
  intros Hw. induction ops as [|op ops IH]; intros U R s0 H0 H1 HR HV Hyp tr o He; cbn [circuit] in He.
  - inversion He; subst. exists s0, R. split; [intros i _; auto|]. split; [intros i v [[]|[]]|]. split; [intros a b c []|auto].
  - apply exec_bind_o in He. destruct He as [t1 [t2 [oa [-> [X1 X2]]]]].
    assert (Rd : ready sqrt PP J R (map (ceval s0) R) op).
    { specialize (Hyp 0%nat op [] [] s0 eq_refl). cbn [firstn circuit concat] in Hyp. rewrite app_nil_r in Hyp. apply Hyp.
      - constructor.
      - intros i _; auto.
      - intros i v [[]|[]].
      - intros a b c [].
      - exact I.
      - intros [|j]; discriminate. }
    destruct (step_complete sqrt PP J H wit Hw s0 U R op H0 H1 HR HV Rd t1 oa X1) as [s1 [r [A1 [A2 [A3 [-> A5]]]]]].
    destruct (step_owned U R op t1 r H0 HR X1) as [O1 O2].
    assert (K1 : s1 I0 = 1) by (rewrite A1; auto).
    assert (Back : forall s, agrees (vars t1 U) s1 s -> agrees U s0 s /\ honest s t1 /\ sat s t1 /\ s I0 = 1).
    { intros s Ag. split; [|split; [|split]].
      - intros i Hi. rewrite (Ag i) by now apply vars_incl. now apply A1.
      - intros i v Hin. rewrite (Ag i); [now apply A2|]. now apply (vars_in t1 U i v).
      - intros a b c Hin. destruct (O2 a b c Hin) as [Oa [Ob Oc]]. pose proof (A3 a b c Hin) as X. unfold holds in *.
        now rewrite (ceval_ext_owned (vars t1 U) a s1 s), (ceval_ext_owned (vars t1 U) b s1 s), (ceval_ext_owned (vars t1 U) c s1 s).
      - rewrite (Ag I0); auto. now apply vars_incl. }
    destruct (IH (vars t1 U) (R ++ r) s1) with (tr := t2) (o := o) as [s [R' [B1 [B2 [B3 B4]]]]]; auto.
    + now apply vars_incl.
    + apply Forall_app. split; auto. eapply Forall_impl; [|exact HR]. intros c. apply owned_incl, vars_incl.
    + apply Forall_app. split; auto. rewrite Forall_forall in *. intros c Hc. apply (valued_ext U c s0 s1); auto.
    + intros k o' tr1 Rs s Ek Ex Ag Hh Hs M D. destruct (Back s Ag) as [C1 [C2 [C3 C4]]].
      specialize (Hyp (S k) o' (t1 ++ tr1) (r :: Rs) s Ek). cbn [firstn circuit concat] in Hyp. rewrite app_assoc in Hyp. apply Hyp; auto.
      * apply exec_bind. exists t1, tr1, r. auto.
      * intros i v Hin. rewrite !in_app_iff in Hin. destruct Hin as [[Hin|Hin]|[Hin|Hin]]; [apply C2|apply Hh|apply C2|apply Hh]; auto.
      * intros a b c Hin. rewrite in_app_iff in Hin. destruct Hin as [Hin|Hin]; [now apply C3|now apply Hs].
      * cbn [meets_from]. split; auto. exact (step_sound sqrt PP J H wit U R op H0 HR s t1 r C4 X1 C3).
      * intros [|j] o2 r2; cbn [nth_error]; intros E1 E2; [inversion E1; inversion E2; subst|now apply (D j)].
        exact (step_takes U R o2 t1 r2 s X1 C2).
    + destruct (Back s B1) as [C1 [C2 [C3 C4]]]. exists s, R'. split; auto. split; [|split; auto].
      * intros i v Hin. rewrite !in_app_iff in Hin. destruct Hin as [[Hin|Hin]|[Hin|Hin]]; [apply C2|apply B2|apply C2|apply B2]; auto.
      * intros a b c Hin. rewrite in_app_iff in Hin. destruct Hin as [Hin|Hin]; [now apply C3|now apply B3].
Qed.
End Whole.

(* C80 *)
Lemma claim_C80_sound : forall (p l : positive) (sqrt : Num p -> option (Num p)) (PP : @PoseidonParams p) (J : JubJub p l) wit ops tr R s, params_ok sqrt PP J ->
  exec [I0] (circuit sqrt PP J false wit ops []) tr (Some R) -> s I0 = 1 -> sat s tr ->
  exists Rs, R = concat Rs /\ meets sqrt PP J s ops Rs /\ (honest s tr -> draws wit s ops Rs).
Proof.
  intros p l sqrt PP J wit ops tr R s H He H1 Hs.
  destruct (circuit_sound sqrt PP J H wit ops [I0] [] tr R s) as [Rs [E [M D]]]; auto; [now left|].
  exists Rs. split; [exact E|]. split; [|exact D]. destruct (meets_from_ok sqrt PP J s ops [] Rs M) as [L X]. split; [exact L|exact X].
Qed.
Lemma claim_C80_complete : forall (p l : positive) (sqrt : Num p -> option (Num p)) (PP : @PoseidonParams p) (J : JubJub p l) wit ops, params_ok sqrt PP J ->
  (forall n, wit n <> None) ->
  (forall k o tr1 Rs s, nth_error ops k = Some o -> exec [I0] (circuit sqrt PP J false wit (firstn k ops) []) tr1 (Some (concat Rs)) ->
     s I0 = 1 -> honest s tr1 -> sat s tr1 -> meets sqrt PP J s (firstn k ops) Rs -> draws wit s (firstn k ops) Rs ->
     ready sqrt PP J (concat Rs) (map (ceval s) (concat Rs)) o) ->
  forall tr o, exec [I0] (circuit sqrt PP J false wit ops []) tr o ->
  exists s Rs, s I0 = 1 /\ honest s tr /\ sat s tr /\ o = Some (concat Rs) /\ meets sqrt PP J s ops Rs /\ draws wit s ops Rs.
Proof.
  intros p l sqrt PP J wit ops H Hw Hyp tr o He.
  destruct (circuit_complete sqrt PP J H wit ops Hw [I0] [] (fun _ => 1)) with (tr := tr) (o := o) as [s [R [A1 [A2 [A3 A4]]]]]; auto.
  - now left.
  - intros k o' tr1 Rs s Ek Ex Ag Hh Hs M D. cbn [app] in *. apply (Hyp k o' tr1); auto; [apply Ag; now left|].
    destruct (meets_from_ok sqrt PP J s (firstn k ops) [] Rs M) as [L X]. split; [exact L|exact X].
  - assert (K1 : s I0 = 1) by (apply A1; now left). subst o.
    destruct (claim_C80_sound p l sqrt PP J wit ops tr R s H He K1 A3) as [Rs [-> [M D]]]. exists s, Rs. auto 10.
Qed.
Lemma claim_C80_library : forall (sqrt : Num bn_r -> option (Num bn_r)), (forall a, match sqrt a with Some b => b * b = a | None => ~ is_square a end) ->
  exists J P, jubjub_bn sqrt = Ok J /\ pp_new 64 true 4 8 54 = Ok (Some P) /\ params_ok sqrt P J.
Proof.
  intros sqrt Hs. destruct (bn_curve sqrt Hs) as [J [EJ [K _]]]. destruct (lib_params 4 8 54) as [P [EP [HP [Ht [Hf [_ Hz]]]]]]; [cbn; auto|].
  exists J, P. split; [exact EJ|]. split; [exact EP|]. constructor; auto; try lia; try reflexivity. vm_compute; lia.
Qed.

(** A circuit over the library's parameters: hash two numbers and publish the hash. *)
Definition hash_ops {p} : list (@op p) := [oAlloc 0; oAlloc 1; oPoseidon [0; 1]%nat; oInputize 2].
Lemma map_some {A} (l : list A) x : map Some l = [Some x] -> l = [x].
Proof. destruct l as [|a [|b l]]; cbn; intros E; try discriminate. congruence. Qed.
Lemma hash_values {p l} sqrt PP (J : JubJub p l) (x y : Num p) s Rs n : let wit k := Some (if (k =? 0)%nat then x else y) in
  meets sqrt PP J s (firstn n hash_ops) Rs -> draws wit s (firstn n hash_ops) Rs -> (n <= 4)%nat ->
  exists h, ((2 < n)%nat -> poseidon PP [x; y] = Ok h) /\ map (ceval s) (concat Rs) = firstn n [x; y; h].
Proof.
  intros wit [L M] D Hn.
  assert (V0 : forall r, nth_error (firstn n hash_ops) 0 = Some (oAlloc (p := p) 0) -> nth_error Rs 0 = Some r -> map (ceval s) r = [x]).
  { intros r E1 E2. apply map_some. exact (D 0%nat _ r E1 E2). }
  assert (V1 : forall r, nth_error (firstn n hash_ops) 1 = Some (oAlloc (p := p) 1) -> nth_error Rs 1 = Some r -> map (ceval s) r = [y]).
  { intros r E1 E2. apply map_some. exact (D 1%nat _ r E1 E2). }
  destruct n as [|[|[|n]]]; [exists 0|exists 0|exists 0|].
  - destruct Rs; [|discriminate L]. split; [lia|reflexivity].
  - destruct Rs as [|r0 [|? ?]]; try discriminate L. split; [lia|]. cbn [concat]. rewrite app_nil_r. now apply V0.
  - destruct Rs as [|r0 [|r1 [|? ?]]]; try discriminate L. split; [lia|]. cbn [concat]. rewrite app_nil_r, map_app, (V0 r0), (V1 r1) by reflexivity. reflexivity.
  - destruct Rs as [|r0 [|r1 [|r2 Rs]]]; try (cbn in L; discriminate L).
    pose proof (M 2%nat (oPoseidon [0; 1]%nat) r2 eq_refl eq_refl) as X. cbn [firstn concat] in X. cbv zeta in X. cbn [means] in X. cbv zeta in X.
    rewrite app_nil_r, map_app, (V0 r0), (V1 r1) in X by reflexivity. cbn [map nth app] in X. destruct X as [h [X1 X2]].
    exists h. split; auto. cbn [concat]. rewrite !map_app, (V0 r0), (V1 r1), X2 by reflexivity.
    destruct n as [|[|n]]; [| |lia].
    + destruct Rs; [|discriminate L]. reflexivity.
    + destruct Rs as [|r3 [|? ?]]; try discriminate L.
      pose proof (M 3%nat (oInputize 2) r3 eq_refl eq_refl) as Y. cbn [means] in Y. cbv zeta in Y. cbn [concat]. rewrite app_nil_r, Y. reflexivity.
Qed.
Lemma hash_run {p l} sqrt PP (J : JubJub p l) (x y : Num p) : params_ok sqrt PP J ->
  let wit k := Some (if (k =? 0)%nat then x else y) in
  exists tr s R h, exec [I0] (circuit sqrt PP J false wit hash_ops []) tr (Some R) /\ s I0 = 1 /\ honest s tr /\ sat s tr /\
    poseidon PP [x; y] = Ok h /\ map (ceval s) R = [x; y; h].
Proof.
  intros H wit. pose proof (k_t _ _ _ H) as Ht.
  assert (He : exists tr o, exec [I0] (circuit sqrt PP J false wit hash_ops []) tr o).
  { eexists _, _. apply (run_exec _ 0). repeat constructor. }
  destruct He as [tr [o He]].
  destruct (claim_C80_complete p l sqrt PP J wit hash_ops H ltac:(discriminate)) with (tr := tr) (o := o) as [s [Rs [A1 [A2 [A3 [-> [A5 A6]]]]]]]; auto.
  - intros k o' tr1 Rs s Ek _ _ _ _ M D.
    assert (Hk : (k < 4)%nat) by (change 4%nat with (length (@hash_ops p)); apply nth_error_Some; congruence).
    destruct (hash_values sqrt PP J x y s Rs k M D ltac:(lia)) as [h [_ V]].
    assert (Ln : length (concat Rs) = length (firstn k [x; y; h])) by (rewrite <- V; symmetry; apply map_length).
    destruct k as [|[|[|[|k]]]]; [| | | |lia]; cbn [hash_ops nth_error] in Ek; inversion Ek; subst; cbn [firstn length] in Ln; split; cbn [args ready]; rewrite ?Ln; repeat constructor; cbn; lia.
  - destruct (hash_values sqrt PP J x y s Rs 4 A5 A6 ltac:(lia)) as [h [V1 V2]]. exists tr, s, (concat Rs), h. auto 10.
Qed.
Lemma case_C80_complete : exists J P, jubjub_bn sqrt_search = Ok J /\ pp_new 64 true 4 8 54 = Ok (Some P) /\ params_ok sqrt_search P J /\
  forall x y, let wit k := Some (if (k =? 0)%nat then x else y) in
  exists tr s R h, exec [I0] (circuit sqrt_search P J false wit hash_ops []) tr (Some R) /\ s I0 = 1 /\ honest s tr /\ sat s tr /\
    poseidon P [x; y] = Ok h /\ map (ceval s) R = [x; y; h].
Proof.
  destruct (claim_C80_library sqrt_search (sqrt_search_ok _)) as [J [P [E1 [E2 H]]]]. exists J, P. split; [exact E1|]. split; [exact E2|]. split; [exact H|].
  intros x y. exact (hash_run sqrt_search P J x y H).
Qed.
Lemma case_C80_sound : exists (J : JubJub bn_r bn_l) (P : @PoseidonParams bn_r) wit tr R s, params_ok sqrt_search P J /\
  exec [I0] (circuit sqrt_search P J false wit hash_ops []) tr (Some R) /\ s I0 = 1 /\ sat s tr /\ map (ceval s) R <> [].
Proof.
  destruct case_C80_complete as [J [P [_ [_ [H X]]]]]. destruct (X (num 3) (num 4)) as [tr [s [R [h [A1 [A2 [_ [A4 [_ A6]]]]]]]]].
  exists J, P, (fun k => Some (if (k =? 0)%nat then num 3 else num 4)), tr, R, s. split; [exact H|]. split; [exact A1|]. split; [exact A2|]. split; [exact A4|]. rewrite A6. discriminate.
Qed.
Lemma case_C80_library : forall a : Num bn_r, match sqrt_search a with Some b => b * b = a | None => ~ is_square a end.
Proof. apply sqrt_search_ok. Qed.
