(** Only inputize allocates public inputs. *)

From Verif Require Export Ops Sem.

Section NoInput.
Context {p : positive}.
Notation F := (Num p).

Fixpoint noin {A} (m : prog p A) : Prop :=
  match m with
  | Ret _ | PPanic => True
  | Alloc _ k => forall i, noin (k i)
  | AllocInput _ _ => False
  | Enforce _ _ _ k => noin k
  end.
Lemma noin_bind {A B} (m : prog p A) (f : A -> prog p B) : noin m -> (forall a, noin (f a)) -> noin (pbind m f).
Proof. intros H Hf. induction m; cbn in *; auto; contradiction. Qed.
Lemma noin_lift {A} (r : res A) : noin (plift r).
Proof. destruct r; exact I. Qed.
Lemma noin_assert b : noin (passert (p := p) b).
Proof. destruct b; exact I. Qed.
Lemma noin_enf (a b c : CNum p) : noin (enforce a b c).
Proof. exact I. Qed.
Lemma noin_calloc (v : option F) : noin (calloc v).
Proof. intros i. exact I. Qed.
Lemma noin_cballoc v : noin (cballoc (p := p) v).
Proof. intros i. exact I. Qed.
Lemma noin_mapM {A B} (f : A -> prog p B) l : (forall a, noin (f a)) -> noin (pmapM f l).
Proof. intros H. induction l; cbn [pmapM]; [exact I|]. repeat (apply noin_bind; auto; intros). exact I. Qed.

Create HintDb noin.
Hint Resolve noin_lift noin_assert noin_enf noin_calloc noin_cballoc : noin.
Ltac go := repeat first
  [ progress intros
  | exact I
  | apply noin_bind
  | apply noin_mapM
  | solve [auto with noin]
  | match goal with
    | |- noin (match ?x with _ => _ end) => destruct x
    end ].

Lemma noin_cmul (a b : CNum p) : noin (cmul a b). Proof. unfold cmul. go. Qed.
Hint Resolve noin_cmul : noin.
Lemma noin_csquare (a : CNum p) : noin (csquare a). Proof. unfold csquare. go. Qed.
Lemma noin_cdiv (a b : CNum p) : noin (cdiv a b). Proof. unfold cdiv. go. Qed.
Lemma noin_assert_const (a : CNum p) k : noin (cassert_const a k). Proof. unfold cassert_const. go. Qed.
Hint Resolve noin_csquare noin_cdiv noin_assert_const : noin.
Lemma noin_assert_zero (a : CNum p) : noin (cassert_zero a). Proof. unfold cassert_zero. go. Qed.
Hint Resolve noin_assert_zero : noin.
Lemma noin_assert_eq (a b : CNum p) : noin (cassert_eq a b). Proof. unfold cassert_eq. go. Qed.
Lemma noin_assert_nonzero (a : CNum p) : noin (cassert_nonzero a). Proof. unfold cassert_nonzero. go. Qed.
Lemma noin_assert_bit (a : CNum p) : noin (cassert_bit a). Proof. unfold cassert_bit. go. Qed.
Hint Resolve noin_assert_eq noin_assert_nonzero noin_assert_bit : noin.
Lemma noin_cb_assert (a : CBool p) : noin (cb_assert a). Proof. unfold cb_assert. go. Qed.
Lemma noin_cb_assert_const (a : CBool p) b : noin (cb_assert_const a b). Proof. unfold cb_assert_const. go. Qed.
Hint Resolve noin_cb_assert noin_cb_assert_const : noin.
Lemma noin_cb_assert_false (a : CBool p) : noin (cb_assert_false a). Proof. unfold cb_assert_false. go. Qed.
Lemma noin_is_zero (a : CNum p) : noin (cis_zero a). Proof. unfold cis_zero. go. Qed.
Hint Resolve noin_cb_assert_false noin_is_zero : noin.
Lemma noin_is_eq (a b : CNum p) : noin (cis_eq a b). Proof. unfold cis_eq. go. Qed.
Lemma noin_switch (a : CNum p) b c : noin (cswitch a b c). Proof. unfold cswitch. go. Qed.
Hint Resolve noin_is_eq noin_switch : noin.
Lemma noin_bits_loop is vb (k : F) rem : noin (bits_loop is vb k rem).
Proof. revert k rem. induction is; intros; cbn [bits_loop]; go. Qed.
Hint Resolve noin_bits_loop : noin.
Lemma noin_into_bits (a : CNum p) n : noin (c_into_bits_le a n). Proof. unfold c_into_bits_le. go. Qed.
Lemma noin_comp_loop n sig ct (k : F) acc : noin (comp_loop n sig ct k acc).
Proof. revert sig ct k acc. induction n; intros; cbn [comp_loop]; go. Qed.
Hint Resolve noin_into_bits noin_comp_loop : noin.
Lemma noin_comp_constant sig (ct : F) : noin (c_comp_constant sig ct). Proof. unfold c_comp_constant. go. Qed.
Hint Resolve noin_comp_constant : noin.
Lemma noin_into_bits_strict (a : CNum p) : noin (c_into_bits_le_strict a). Proof. unfold c_into_bits_le_strict. go. Qed.
Lemma noin_mux3_col s0 s1 s2 s10 (c : list F) : noin (mux3_col s0 s1 s2 s10 c). Proof. unfold mux3_col. go. Qed.
Hint Resolve noin_into_bits_strict noin_mux3_col : noin.
Lemma noin_mux3 s (c : list (list F)) : noin (c_mux3 s c). Proof. unfold c_mux3. go. Qed.
Lemma noin_sigma (a : CNum p) : noin (c_sigma a). Proof. unfold c_sigma. go. Qed.
Hint Resolve noin_mux3 noin_sigma : noin.
Variable PP : PoseidonParams p.
Lemma noin_round i st : noin (c_round PP i st). Proof. unfold c_round. go. Qed.
Hint Resolve noin_round : noin.
Lemma noin_rounds is st : noin (c_rounds PP is st).
Proof. revert st. induction is; intros; cbn [c_rounds]; go. Qed.
Hint Resolve noin_rounds : noin.
Lemma noin_poseidon l : noin (c_poseidon PP l). Proof. unfold c_poseidon. go. Qed.
Hint Resolve noin_poseidon : noin.
Lemma noin_poseidon_salt l salt : noin (c_poseidon_with_salt PP l salt). Proof. unfold c_poseidon_with_salt. go. Qed.
Lemma noin_merkle_loop root l : noin (c_merkle_proof_root PP root l).
Proof. revert root. induction l as [|[b s] l IH]; intros; cbn [c_merkle_proof_root]; go. Qed.
Hint Resolve noin_poseidon_salt noin_merkle_loop : noin.
Lemma noin_merkle leaf sib path : noin (c_poseidon_merkle_proof_root PP leaf sib path). Proof. unfold c_poseidon_merkle_proof_root. go. Qed.
Lemma noin_tree_level is st : noin (c_tree_level PP is st).
Proof. revert st. induction is; intros; cbn [c_tree_level]; go. Qed.
Hint Resolve noin_merkle noin_tree_level : noin.
Lemma noin_tree_levels total js st : noin (c_tree_levels PP total js st).
Proof. revert st. induction js; intros; cbn [c_tree_levels]; go. Qed.
Hint Resolve noin_tree_levels : noin.
Lemma noin_tree leaf : noin (c_poseidon_merkle_tree_root PP leaf). Proof. unfold c_poseidon_merkle_tree_root. go. Qed.
Hint Resolve noin_tree : noin.
Lemma noin_cp_alloc v : noin (cp_alloc (p := p) v). Proof. unfold cp_alloc. go. Qed.
Lemma noin_cp_switch (P : CPoint p) b Q : noin (cp_switch P b Q). Proof. unfold cp_switch. go. Qed.
Lemma noin_ce_double dd (P : CPoint p) : noin (ce_double dd P). Proof. unfold ce_double. go. Qed.
Hint Resolve noin_cp_alloc noin_cp_switch noin_ce_double : noin.
Lemma noin_cofactor dd (P : CPoint p) : noin (ce_mul_by_cofactor dd P). Proof. unfold ce_mul_by_cofactor. go. Qed.
Lemma noin_ce_add dd (P Q : CPoint p) : noin (ce_add dd P Q). Proof. unfold ce_add. go. Qed.
Lemma noin_in_curve dd (P : CPoint p) : noin (ce_assert_in_curve dd P). Proof. unfold ce_assert_in_curve. go. Qed.
Hint Resolve noin_cofactor noin_ce_add noin_in_curve : noin.
Lemma noin_in_subgroup l dd (P : CPoint p) : noin (ce_assert_in_subgroup l dd P). Proof. unfold ce_assert_in_subgroup. go. Qed.
Lemma noin_into_mont (P : CPoint p) : noin (ce_into_montgomery P). Proof. unfold ce_into_montgomery. go. Qed.
Lemma noin_cm_double a b (P : CPoint p) : noin (cm_double a b P). Proof. unfold cm_double. go. Qed.
Lemma noin_cm_add a b (P Q : CPoint p) : noin (cm_add a b P Q). Proof. unfold cm_add. go. Qed.
Lemma noin_into_edwards (P : CPoint p) : noin (cm_into_edwards P). Proof. unfold cm_into_edwards. go. Qed.
Hint Resolve noin_in_subgroup noin_into_mont noin_cm_double noin_cm_add noin_into_edwards : noin.
Lemma noin_windows n dd a b bits base acc : noin (windows_loop (p := p) n dd a b bits base acc).
Proof. revert bits base acc. induction n; intros; cbn [windows_loop]; go. Qed.
Lemma noin_exponents n a b M : noin (exponents_loop (p := p) n a b M).
Proof. revert M. induction n; intros; cbn [exponents_loop]; go. Qed.
Lemma noin_acc_loop a b bits exps acc : noin (acc_loop (p := p) a b bits exps acc).
Proof. revert exps acc. induction bits; intros; cbn [acc_loop]; go. Qed.
Hint Resolve noin_windows noin_exponents noin_acc_loop : noin.
Context {l : positive}.
Variables (sqrt : F -> option F) (J : JubJub p l).
Lemma noin_decompress x : noin (ce_subgroup_decompress sqrt J x). Proof. unfold ce_subgroup_decompress. go. Qed.
Lemma noin_mul_const c bits : noin (ce_mul_const J c bits). Proof. unfold ce_mul_const. go. Qed.
Lemma noin_mul_var P bits : noin (ce_mul_var J P bits). Proof. unfold ce_mul_var. go. Qed.
Hint Resolve noin_decompress noin_mul_const noin_mul_var : noin.
Lemma noin_mul P bits : noin (ce_mul J P bits). Proof. unfold ce_mul. go. Qed.
Lemma noin_check_y a b u x : noin (check_and_get_y sqrt a b u x). Proof. unfold check_and_get_y. go. Qed.
Hint Resolve noin_mul noin_check_y : noin.
Lemma noin_from_scalar t : noin (ce_from_scalar sqrt J t). Proof. unfold ce_from_scalar. go. Qed.
Lemma noin_eddsa s r a m : noin (c_eddsaposeidon_verify sqrt PP J s r a m). Proof. unfold c_eddsaposeidon_verify. go. Qed.
Hint Resolve noin_from_scalar noin_eddsa : noin.
Lemma noin_reg R i : noin (reg (p := p) R i). Proof. unfold reg. go. Qed.
Lemma noin_regs R i : noin (regs (p := p) R i). Proof. unfold regs, reg. go. Qed.
Hint Resolve noin_reg noin_regs : noin.
Lemma noin_rpt R P : noin (rpt (p := p) R P). Proof. unfold rpt. go. Qed.
Hint Resolve noin_rpt : noin.

Lemma noin_step g wit R o : (forall a, o <> oInputize a) -> noin (step sqrt PP J g wit R o).
Proof. intros H. destruct o; try congruence; cbn [step]; unfold r0, r1, rP; go. Qed.
End NoInput.
