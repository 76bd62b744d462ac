(** Assertions and selection on Booleans, reading Booleans, signals made from
    other signals, zero-bit decompositions and random points. *)

From Verif Require Export SignalClaims EccClaims.
Open Scope num_scope.

Section PrimeClaims.
Variable p : positive.
Hypothesis Hp : Prime p.
Set Default Proof Using "Hp".
Notation F := (Num p).
Add Field misc_field : (num_field Hp) (morphism (@num_morph p), constants [num_cst], power_tac (@num_power p) [num_pow_cst]).

(* C10 *)
(** assert, assert_const, assert_true and assert_false of a Boolean. *)
Lemma claim_C10_booleans : forall (U : list Index) (b : CBool p) (v : bool), In I0 U -> owned U b ->
  (sound_for U (cb_assert b) (fun s _ => ceval s b = 0 \/ ceval s b = 1) /\
   complete_for U (cb_assert b) (fun s => valued s b /\ (ceval s b = 0 \/ ceval s b = 1)) (fun _ _ => True)) /\
  (sound_for U (cb_assert_const b v) (fun s _ => ceval s b = if v then 1 else 0) /\
   complete_for U (cb_assert_const b v) (fun s => valued s b /\ ceval s b = if v then 1 else 0) (fun _ _ => True)) /\
  (sound_for U (cb_assert_true b) (fun s _ => ceval s b = 1) /\
   complete_for U (cb_assert_true b) (fun s => valued s b /\ ceval s b = 1) (fun _ _ => True)) /\
  (sound_for U (cb_assert_false b) (fun s _ => ceval s b = 0) /\
   complete_for U (cb_assert_false b) (fun s => valued s b /\ ceval s b = 0) (fun _ _ => True)).
Proof.
  intros U b v H0 Hb.
  assert (C : forall v : bool, nbool v = (if v then 1 else 0) :> F) by (intros []; reflexivity).
  split; [exact (proj2 (proj2 (proj2 (proj2 (claim_C10_assertions p Hp U b b 0 H0 Hb Hb)))))|].
  split; [rewrite <- C; exact (proj1 (claim_C10_assertions p Hp U b b (nbool v) H0 Hb Hb))|].
  split; [exact (proj1 (claim_C10_assertions p Hp U b b (nbool true) H0 Hb Hb))|
          exact (proj1 (claim_C10_assertions p Hp U b b (nbool false) H0 Hb Hb))].
Qed.

(* C11 *)
(** [bit.if_else(a, b)]: the first when the bit is 1, the second when it is 0. *)
Lemma claim_C11_if_else : forall (U : list Index) (a bit b : CNum p), In I0 U -> owned U a -> owned U bit -> owned U b ->
  sound_for U (cif_else bit a b) (fun s r =>
    (ceval s bit = 1 -> ceval s r = ceval s a) /\ (ceval s bit = 0 -> ceval s r = ceval s b)) /\
  complete_for U (cif_else bit a b)
    (fun s => valued s a /\ valued s bit /\ valued s b /\ (ceval s bit = 0 \/ ceval s bit = 1))
    (fun s r => valued s r /\ (ceval s bit = 1 -> ceval s r = ceval s a) /\ (ceval s bit = 0 -> ceval s r = ceval s b)).
Proof.
  intros U a bit b H0 Ha Hbit Hb. destruct (claim_C11_switch p Hp U a bit b H0 Ha Hbit Hb) as [X [Y _]]. split; [exact X|exact Y].
Qed.

(* C14 *)
(** get_value of a Boolean: its value, nothing when there is none, and a panic
    when the witness is no bit. *)
Lemma claim_C14_get_value : forall (b : CBool p),
  (cvalue b = None -> cb_get_value b = Ok None) /\
  (cvalue b = Some 1 -> cb_get_value b = Ok (Some true)) /\
  (cvalue b = Some 0 -> cb_get_value b = Ok (Some false)) /\
  (forall v, cvalue b = Some v -> v <> 0 -> v <> 1 -> cb_get_value b = Panic).
Proof.
  assert (N : neqb (1 : F) 0 = false). { destruct (neqb (1 : F) 0) eqn:E; auto. apply neqb_eq in E. now apply (n1_neq_n0 Hp) in E. }
  intros b. unfold cb_get_value, omapM, ninto_bool. split; [|split; [|split]].
  - now intros ->.
  - intros ->. rewrite N, (proj2 (neqb_eq 1 1) eq_refl). reflexivity.
  - intros ->. rewrite (proj2 (neqb_eq 0 0) eq_refl). reflexivity.
  - intros v -> V0 V1. destruct (neqb v 0) eqn:E; [now apply neqb_eq in E|]. destruct (neqb v 1) eqn:E1; [now apply neqb_eq in E1|]. reflexivity.
Qed.

(* C15 *)
(** A decomposition into no bits: empty for the constant zero; any other signal
    makes the library panic, a variable after it has been asserted to be a bit. *)
Lemma claim_C15_zero_bits : forall (U : list Index) (x : CNum p) tr o, In I0 U -> owned U x -> exec U (c_into_bits_le x 0) tr o ->
  match as_const x with
  | Some v => tr = [] /\ (v = 0 -> o = Some []) /\ (v <> 0 -> o = None)
  | None => o = None
  end.
Proof.
  intros U x tr o H0 Hx. unfold c_into_bits_le. destruct (as_const x) as [v|] eqn:E.
  - cbn [seq const_bits_loop plift pbind fst snd]. unfold passert. destruct (nis_zero v) eqn:Z0; cbn [pbind]; intros He; inversion He; subst.
    + apply nis_zero_eq in Z0. subst. split; auto. split; auto. intros N. now contradict N.
    + split; auto. split; auto. intros ->. rewrite (proj2 (nis_zero_eq 0) eq_refl) in Z0. discriminate.
  - cbn [seq bits_loop Nat.sub pbind fst snd]. destruct o as [r|]; auto. rewrite exec_bind. intros [t1 [t2 [u [_ [_ X]]]]]. inversion X.
Qed.

(* C31 *)
(** is_in_curve is the curve equation. *)
Lemma claim_C31_is_in_curve : forall (d x y : Num p), e_is_in_curve d (mkE x y) = true <-> y * y - x * x = 1 + d * (x * x) * (y * y).
Proof. intros d x y. unfold e_is_in_curve, nsquare. cbn [ex ey]. apply neqb_eq. Qed.

(** rand: the point for the first drawn pair (y, sign) whose y belongs to a point
    of the curve; every point is the result for some pair. *)
Lemma claim_C31_rand : forall (d : Num p) (sqrt : Num p -> option (Num p)) (draws : list (Num p * bool)),
  is_square (- (1) : Num p) -> ~ is_square d ->
  (forall a, match sqrt a with Some b => b * b = a | None => ~ is_square a end) ->
  let none l := forall y b, In (y, b) l -> forall x, ~ on_curve d (mkE x y) in
  (exists o, e_rand sqrt d draws = Ok o /\ (o = None <-> none draws) /\
    forall P, o = Some P -> e_is_in_curve d P = true /\ on_curve d P /\
      exists l1 sign l2, draws = l1 ++ (ey P, sign) :: l2 /\ none l1 /\ (ex P <> 0 -> Z.odd (nval (ex P)) = sign)) /\
  (forall P, on_curve d P -> exists y sign, forall l, e_rand sqrt d ((y, sign) :: l) = Ok (Some P)).
Proof.
  intros d sqrt draws Hm1 Hd Hs none. split.
  - induction draws as [|[y sign] draws IH].
    + exists None. split; [reflexivity|]. split; [split; [intros _ y b []|reflexivity]|discriminate].
    + destruct (claim_C31_get_for_y p Hp d y sign sqrt Hm1 Hd Hs) as [o [E [X Y]]]. cbn [e_rand]. rewrite E. cbn [rbind].
      destruct o as [P|].
      * destruct (Y P eq_refl) as [Y1 [Y2 [Y3 _]]]. exists (Some P). split; [reflexivity|]. split.
        -- split; [discriminate|]. intros N. exfalso. apply (N y sign (or_introl eq_refl) (ex P)). rewrite <- Y2. now destruct P.
        -- intros P' EP. assert (P' = P) by congruence. subst P'. split; [|split; [exact Y1|]].
           ++ destruct P as [x y']. apply claim_C31_is_in_curve. exact Y1.
           ++ exists [], sign, draws. rewrite Y2. split; [reflexivity|]. split; [intros ? ? []|exact Y3].
      * assert (N : forall x, ~ on_curve d (mkE x y)). { intros x C. apply (proj2 X); eauto. }
        destruct IH as [o [E2 [I1 I2]]]. exists o. split; [exact E2|]. split.
        -- rewrite I1. split; intros H y' b' Hin x.
           ++ destruct Hin as [Hin|Hin]; [|now apply (H y' b')]. assert (y' = y) by congruence. subst. apply N.
           ++ apply (H y' b'). now right.
        -- intros P EP. destruct (I2 P EP) as [J1 [J2 [l1 [sg [l2 [J3 [J4 J5]]]]]]]. split; [exact J1|]. split; [exact J2|].
           exists ((y, sign) :: l1), sg, l2. split; [now rewrite J3|]. split; [|exact J5].
           intros y' b' Hin x. destruct Hin as [Hin|Hin]; [|now apply (J4 y' b')]. assert (y' = y) by congruence. subst. apply N.
  - intros [x y] C. exists y, (Z.odd (nval x)).
    destruct (claim_C31_get_for_y p Hp d y (Z.odd (nval x)) sqrt Hm1 Hd Hs) as [o [E [X Y]]]. intros l. cbn [e_rand]. rewrite E. cbn [rbind].
    destruct o as [P|]; [|exfalso; apply (proj2 X); eauto]. destruct (Y P eq_refl) as [Y1 [Y2 [Y3 Y4]]].
    do 2 f_equal. destruct (nis_zero x) eqn:Z0.
    + apply nis_zero_eq in Z0. subst x. destruct P as [x' y']. cbn [ex ey] in *. subst y'. f_equal.
      unfold on_curve in *. cbn [ex ey] in *.
      assert (Ey : y * y = 1) by (transitivity (y * y - 0 * 0); [ring|rewrite C; ring]).
      destruct (nis_zero x') eqn:Z1; [now apply nis_zero_eq in Z1|]. exfalso.
      assert (Nx : x' <> 0) by (intros ->; rewrite (proj2 (nis_zero_eq 0) eq_refl) in Z1; discriminate).
      apply Hd. destruct Hm1 as [i Hi]. exists i. rewrite Hi.
      rewrite Ey in Y1. assert (Q : x' * x' * (d + 1) = 0). { transitivity (1 + d * (x' * x') * 1 - (1 - x' * x')); [ring|]. rewrite Y1. ring. }
      assert (W : d + 1 = 0). { transitivity (x' * x' * (d + 1) / (x' * x')); [field; auto|]. rewrite Q. field; auto. }
      symmetry. transitivity (d + 1 - 1); [ring|]. rewrite W. ring.
    + symmetry. apply Y4; auto. cbn [ex]. intros ->. rewrite (proj2 (nis_zero_eq 0) eq_refl) in Z0. discriminate.
Qed.
End PrimeClaims.
Unset Default Proof Using.

(* C57 *)
Lemma get_cs_ok {p} t (x : sig p t) : noempty t -> sized t x -> s_get_cs t x = Ok tt.
Proof.
  revert t x. fix IH 1. intros [| |L t|[|t ts]] x N Z0; try reflexivity.
  - destruct N as [NL Nt]. destruct Z0 as [Lx Fx]. cbn [s_get_cs]. change (sig p (TVec L t)) with (list (sig p t)) in x.
    destruct x as [|a x]; [exfalso; apply NL; now rewrite <- Lx|]. cbn [sv_index nth_error unwrap rbind].
    apply (IH t a Nt). now inversion Fx.
  - destruct N.
  - destruct N as [Nt _]. destruct Z0 as [Z0 _]. apply (IH t (fst x) Nt Z0).
Qed.
(** [bit.if_else(x, y)] of composite signals selects leaf by leaf. *)
Lemma claim_C57_if_else : forall p t (x y : sig p t) (bit : CBool p), sized t x -> sized t y ->
  acts_as (s_if_else t bit x y) (leaves t) (pmapM (fun ab => cif_else bit (fst ab) (snd ab)) (combine (leaves t x) (leaves t y))) /\
  (forall U tr r, exec U (s_if_else t bit x y) tr (Some r) -> sized t r).
Proof.
  intros p t x y bit Zx Zy. unfold s_if_else, cif_else.
  pose proof (proj1 (switch_both bit) t x y Zx Zy) as P. split; [exact (leafR_view _ _ _ P)|].
  intros U tr r. exact (leafR_sized _ _ _ _ _ _ P).
Qed.
(** derive_const and derive_alloc are from_const and alloc, on signals that have a
    first leaf; on an empty vector they panic without a call. *)
Lemma claim_C57_derive : forall p t' t (x : sig p t'), sized t' x ->
  (noempty t' -> (forall v : val p t, s_derive_const t' t x v = s_from_const t v) /\
     forall v : option (val p t), acts_as (s_derive_alloc t' t x v) (fun r => r) (s_alloc t v)) /\
  ((exists t1, t' = TVec 0 t1) -> (forall v : val p t, s_derive_const t' t x v = Panic) /\
     forall (v : option (val p t)) U tr o, exec U (s_derive_alloc t' t x v) tr o -> o = None /\ tr = []).
Proof.
  intros p t' t x Z0. split.
  - intros N. unfold s_derive_const, s_derive_alloc. rewrite (get_cs_ok t' x N Z0). cbn [rbind plift pbind]. split; [reflexivity|].
    intros v U tr. split; [auto|]. split; [eauto|tauto].
  - intros [t1 E]. subst t'. destruct Z0 as [Lx _]. change (sig p (TVec 0 t1)) with (list (sig p t1)) in x. destruct x; [|discriminate].
    split; [reflexivity|]. intros v U tr o He. cbn in He. inversion He; subst. auto.
Qed.
(** The proof of a Merkle tree of depth [L]: the siblings, then the path. *)
Lemma claim_C57_merkle : forall p L (sib : list (CNum p)) (path : list (CBool p)),
  (sized (t_merkle L) (sib, (path, tt)) <-> length sib = L /\ length path = L) /\
  leaves (t_merkle L) (sib, (path, tt)) = sib ++ path /\ tsize (t_merkle L) = (2 * L)%nat /\
  (forall (v : list (Num p)) (bs : list bool), vleaves (t_merkle L) (v, (bs, tt)) = v ++ map (fun b : bool => if b then 1 else 0) bs) /\
  (forall U tr, exec U (s_inputize (t_merkle L) (sib, (path, tt))) tr (Some tt) <-> exec U (piter cinputize (sib ++ path)) tr (Some tt)).
Proof.
  intros p L sib path.
  assert (FM : forall l : list (CNum p), flat_map (fun x => [x]) l = l) by (induction l as [|a l IH]; cbn; congruence).
  assert (LV : leaves (t_merkle L) (sib, (path, tt)) = sib ++ path).
  { cbn. rewrite app_nil_r. f_equal; apply FM. }
  split; [|split; [exact LV|split; [|split]]].
  - split.
    + intros [[A _] [[B _] _]]. split; assumption.
    + intros [A B]. split; [split; [exact A|]|split; [split; [exact B|]|exact I]]; apply Forall_forall; intros; exact I.
  - cbn. lia.
  - intros v bs. cbn. rewrite app_nil_r. apply f_equal2; [induction v as [|a v IH]|induction bs as [|[] bs IH]]; cbn; congruence.
  - intros U tr. destruct (claim_C56_linearize p (t_merkle L) (sib, (path, tt))) as [E A]. rewrite E, LV in A.
    destruct (A U tr) as [A1 [A2 _]]. split; intros He; [exact (A1 _ He)|]. destruct (A2 _ He) as [[] [X _]]. exact X.
Qed.

(** Cases *)
Lemma case_C10_booleans : demo [] (b <-- cballoc (p := 13) (Some true) ;; c <-- cballoc (Some false) ;;
  cb_assert b ;;; cb_assert_true b ;;; cb_assert_false c ;;; cb_assert_const c false ;;; Ret [b; c])
  (fun s r => map (ceval s) r = [1; 0]) /\
  snd (run 0 (cb_assert_true (cbconst (p := 13) false))) = None /\ snd (run 0 (cb_assert_false (cbconst (p := 13) true))) = None.
Proof. split; [demo_list [1; 0 : Num 13]|]. split; vm_compute; reflexivity. Qed.
Lemma case_C11_if_else : demo [] (x <-- calloc (p := 13) (Some (num 5)) ;; y <-- calloc (Some (num 7)) ;;
  b <-- cballoc (Some true) ;; c <-- cballoc (Some false) ;; r <-- cif_else b x y ;; r' <-- cif_else c x y ;; Ret [r; r'])
  (fun s r => map (ceval s) r = [num 5; num 7]).
Proof. demo_list [num 5; num 7 : Num 13]. Qed.
Lemma case_C14_get_value : cb_get_value (cvar (Some (1 : Num 13)) (Aux 0)) = Ok (Some true) /\ cb_get_value (cvar (Some (num 2 : Num 13)) (Aux 0)) = Panic /\
  cb_get_value (cvar (None : option (Num 13)) (Aux 0)) = Ok None.
Proof. repeat split. Qed.
Lemma case_C15_zero_bits : exec [I0] (c_into_bits_le (czero (p := 13)) 0) [] (Some []) /\ exec [I0] (c_into_bits_le (cone (p := 13)) 0) [] None /\
  exists tr, exec [I0; Aux 0] (c_into_bits_le (cvar (Some (1 : Num 13)) (Aux 0)) 0) tr None.
Proof. split; [constructor|]. split; [constructor|]. eexists. vm_compute. repeat constructor. Qed.
(** On the curve with d = 2 over F_37: 8 is the x of a point, so rand can return it. *)
Lemma case_C31_rand : is_square (- (1) : Num 37) /\ ~ is_square (num 2 : Num 37) /\
  exists y sign P, e_rand (p := 37) sqrt_search (num 2) [(num 4, true); (y, sign)] = Ok (Some P) /\ ex P = num 8.
Proof.
  destruct case_C27_extended as [A [B _]]. split; [exact A|]. split; [exact B|].
  exists (num 10), false. eexists. split; vm_compute; reflexivity.
Qed.
Lemma case_C31_is_in_curve : e_is_in_curve (num 2) (mkE (num 8) (num 10) : EPoint 37) = true /\ e_is_in_curve (num 2) (mkE (num 8) (num 11) : EPoint 37) = false.
Proof. split; reflexivity. Qed.
Lemma case_C57_if_else : demo [] (demo_two (fun x y => b <-- cballoc (Some true) ;; r <-- s_if_else demo_t b x y ;; s_assert_const demo_t r demo_v ;;; Ret [b]))
  (fun s r => map (ceval s) r = [1]).
Proof. demo_list [1 : Num 73]. Qed.
Lemma case_C57_derive : sized (p := 73) (TVec 0 TNum) [] /\ sized (p := 73) t_point (cone, (czero, tt)) /\ noempty t_point /\
  s_derive_const (p := 73) t_point TNum (cone, (czero, tt)) (num 5) = Ok (cconst (num 5)).
Proof. split; [repeat constructor|]. split; [repeat constructor|]. split; [repeat constructor|reflexivity]. Qed.
Lemma case_C57_merkle : leaves (p := 73) (t_merkle 2) ([cone; czero], ([czero; cone], tt)) = [cone; czero; czero; cone].
Proof. reflexivity. Qed.
