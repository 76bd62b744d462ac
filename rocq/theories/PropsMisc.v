(** Generated from MiscClaims.v by tools/genprops.py. *)
From Verif Require Import MiscClaims.
Open Scope num_scope.

(** assert, assert_const, assert_true and assert_false of a Boolean. *)
Theorem C10_booleans : forall (p : positive), Prime p ->
 forall (U : list Index) (b : CBool p) (v : bool), In I0 U -> owned U b ->
  (sound_for U (cb_assert b) (fun s _ => ceval s b = 0 \/ ceval s b = 1) /\
   complete_for U (cb_assert b) (fun s => valued s b /\ (ceval s b = 0 \/ ceval s b = 1)) (fun _ _ => True)) /\
  (sound_for U (cb_assert_const b v) (fun s _ => ceval s b = if v then 1 else 0) /\
   complete_for U (cb_assert_const b v) (fun s => valued s b /\ ceval s b = if v then 1 else 0) (fun _ _ => True)) /\
  (sound_for U (cb_assert_true b) (fun s _ => ceval s b = 1) /\
   complete_for U (cb_assert_true b) (fun s => valued s b /\ ceval s b = 1) (fun _ _ => True)) /\
  (sound_for U (cb_assert_false b) (fun s _ => ceval s b = 0) /\
   complete_for U (cb_assert_false b) (fun s => valued s b /\ ceval s b = 0) (fun _ _ => True)).
Proof. exact claim_C10_booleans. Qed.
Print Assumptions C10_booleans.

(** [bit.if_else(a, b)]: the first when the bit is 1, the second when it is 0. *)
Theorem C11_if_else : forall (p : positive), Prime p ->
 forall (U : list Index) (a bit b : CNum p), In I0 U -> owned U a -> owned U bit -> owned U b ->
  sound_for U (cif_else bit a b) (fun s r =>
    (ceval s bit = 1 -> ceval s r = ceval s a) /\ (ceval s bit = 0 -> ceval s r = ceval s b)) /\
  complete_for U (cif_else bit a b)
    (fun s => valued s a /\ valued s bit /\ valued s b /\ (ceval s bit = 0 \/ ceval s bit = 1))
    (fun s r => valued s r /\ (ceval s bit = 1 -> ceval s r = ceval s a) /\ (ceval s bit = 0 -> ceval s r = ceval s b)).
Proof. exact claim_C11_if_else. Qed.
Print Assumptions C11_if_else.

(** get_value of a Boolean: its value, nothing when there is none, and a panic
    when the witness is no bit. *)
Theorem C14_get_value : forall (p : positive), Prime p ->
 forall (b : CBool p),
  (cvalue b = None -> cb_get_value b = Ok None) /\
  (cvalue b = Some 1 -> cb_get_value b = Ok (Some true)) /\
  (cvalue b = Some 0 -> cb_get_value b = Ok (Some false)) /\
  (forall v, cvalue b = Some v -> v <> 0 -> v <> 1 -> cb_get_value b = Panic).
Proof. exact claim_C14_get_value. Qed.
Print Assumptions C14_get_value.

(** A decomposition into no bits: empty for the constant zero; any other signal
    makes the library panic, a variable after it has been asserted to be a bit. *)
Theorem C15_zero_bits : forall (p : positive), Prime p ->
 forall (U : list Index) (x : CNum p) tr o, In I0 U -> owned U x -> exec U (c_into_bits_le x 0) tr o ->
  match as_const x with
  | Some v => tr = [] /\ (v = 0 -> o = Some []) /\ (v <> 0 -> o = None)
  | None => o = None
  end.
Proof. exact claim_C15_zero_bits. Qed.
Print Assumptions C15_zero_bits.

(** is_in_curve is the curve equation. *)
Theorem C31_is_in_curve : forall (p : positive), Prime p ->
 forall (d x y : Num p), e_is_in_curve d (mkE x y) = true <-> y * y - x * x = 1 + d * (x * x) * (y * y).
Proof. exact claim_C31_is_in_curve. Qed.
Print Assumptions C31_is_in_curve.

(** rand: the point for the first drawn pair (y, sign) whose y belongs to a point
    of the curve; every point is the result for some pair. *)
Theorem C31_rand : forall (p : positive), Prime p ->
 forall (d : Num p) (sqrt : Num p -> option (Num p)) (draws : list (Num p * bool)),
  is_square (- (1) : Num p) -> ~ is_square d ->
  (forall a, match sqrt a with Some b => b * b = a | None => ~ is_square a end) ->
  let none l := forall y b, In (y, b) l -> forall x, ~ on_curve d (mkE x y) in
  (exists o, e_rand sqrt d draws = Ok o /\ (o = None <-> none draws) /\
    forall P, o = Some P -> e_is_in_curve d P = true /\ on_curve d P /\
      exists l1 sign l2, draws = l1 ++ (ey P, sign) :: l2 /\ none l1 /\ (ex P <> 0 -> Z.odd (nval (ex P)) = sign)) /\
  (forall P, on_curve d P -> exists y sign, forall l, e_rand sqrt d ((y, sign) :: l) = Ok (Some P)).
Proof. exact claim_C31_rand. Qed.
Print Assumptions C31_rand.

(** [bit.if_else(x, y)] of composite signals selects leaf by leaf. *)
Theorem C57_if_else : forall p t (x y : sig p t) (bit : CBool p), sized t x -> sized t y ->
  acts_as (s_if_else t bit x y) (leaves t) (pmapM (fun ab => cif_else bit (fst ab) (snd ab)) (combine (leaves t x) (leaves t y))) /\
  (forall U tr r, exec U (s_if_else t bit x y) tr (Some r) -> sized t r).
Proof. exact claim_C57_if_else. Qed.
Print Assumptions C57_if_else.

(** derive_const and derive_alloc are from_const and alloc, on signals that have a
    first leaf; on an empty vector they panic without a call. *)
Theorem C57_derive : forall p t' t (x : sig p t'), sized t' x ->
  (noempty t' -> (forall v : val p t, s_derive_const t' t x v = s_from_const t v) /\
     forall v : option (val p t), acts_as (s_derive_alloc t' t x v) (fun r => r) (s_alloc t v)) /\
  ((exists t1, t' = TVec 0 t1) -> (forall v : val p t, s_derive_const t' t x v = Panic) /\
     forall (v : option (val p t)) U tr o, exec U (s_derive_alloc t' t x v) tr o -> o = None /\ tr = []).
Proof. exact claim_C57_derive. Qed.
Print Assumptions C57_derive.

(** The proof of a Merkle tree of depth [L]: the siblings, then the path. *)
Theorem C57_merkle : forall p L (sib : list (CNum p)) (path : list (CBool p)),
  (sized (t_merkle L) (sib, (path, tt)) <-> length sib = L /\ length path = L) /\
  leaves (t_merkle L) (sib, (path, tt)) = sib ++ path /\ tsize (t_merkle L) = (2 * L)%nat /\
  (forall (v : list (Num p)) (bs : list bool), vleaves (t_merkle L) (v, (bs, tt)) = v ++ map (fun b : bool => if b then 1 else 0) bs) /\
  (forall U tr, exec U (s_inputize (t_merkle L) (sib, (path, tt))) tr (Some tt) <-> exec U (piter cinputize (sib ++ path)) tr (Some tt)).
Proof. exact claim_C57_merkle. Qed.
Print Assumptions C57_merkle.

(** Cases *)
Example C10_booleans_case : demo [] (b <-- cballoc (p := 13) (Some true) ;; c <-- cballoc (Some false) ;;
  cb_assert b ;;; cb_assert_true b ;;; cb_assert_false c ;;; cb_assert_const c false ;;; Ret [b; c])
  (fun s r => map (ceval s) r = [1; 0]) /\
  snd (run 0 (cb_assert_true (cbconst (p := 13) false))) = None /\ snd (run 0 (cb_assert_false (cbconst (p := 13) true))) = None.
Proof. exact case_C10_booleans. Qed.

Example C11_if_else_case : demo [] (x <-- calloc (p := 13) (Some (num 5)) ;; y <-- calloc (Some (num 7)) ;;
  b <-- cballoc (Some true) ;; c <-- cballoc (Some false) ;; r <-- cif_else b x y ;; r' <-- cif_else c x y ;; Ret [r; r'])
  (fun s r => map (ceval s) r = [num 5; num 7]).
Proof. exact case_C11_if_else. Qed.

Example C14_get_value_case : cb_get_value (cvar (Some (1 : Num 13)) (Aux 0)) = Ok (Some true) /\ cb_get_value (cvar (Some (num 2 : Num 13)) (Aux 0)) = Panic /\
  cb_get_value (cvar (None : option (Num 13)) (Aux 0)) = Ok None.
Proof. exact case_C14_get_value. Qed.

Example C15_zero_bits_case : exec [I0] (c_into_bits_le (czero (p := 13)) 0) [] (Some []) /\ exec [I0] (c_into_bits_le (cone (p := 13)) 0) [] None /\
  exists tr, exec [I0; Aux 0] (c_into_bits_le (cvar (Some (1 : Num 13)) (Aux 0)) 0) tr None.
Proof. exact case_C15_zero_bits. Qed.

(** On the curve with d = 2 over F_37: 8 is the x of a point, so rand can return it. *)
Example C31_rand_case : is_square (- (1) : Num 37) /\ ~ is_square (num 2 : Num 37) /\
  exists y sign P, e_rand (p := 37) sqrt_search (num 2) [(num 4, true); (y, sign)] = Ok (Some P) /\ ex P = num 8.
Proof. exact case_C31_rand. Qed.

Example C31_is_in_curve_case : e_is_in_curve (num 2) (mkE (num 8) (num 10) : EPoint 37) = true /\ e_is_in_curve (num 2) (mkE (num 8) (num 11) : EPoint 37) = false.
Proof. exact case_C31_is_in_curve. Qed.

Example C57_if_else_case : demo [] (demo_two (fun x y => b <-- cballoc (Some true) ;; r <-- s_if_else demo_t b x y ;; s_assert_const demo_t r demo_v ;;; Ret [b]))
  (fun s r => map (ceval s) r = [1]).
Proof. exact case_C57_if_else. Qed.

Example C57_derive_case : sized (p := 73) (TVec 0 TNum) [] /\ sized (p := 73) t_point (cone, (czero, tt)) /\ noempty t_point /\
  s_derive_const (p := 73) t_point TNum (cone, (czero, tt)) (num 5) = Ok (cconst (num 5)).
Proof. exact case_C57_derive. Qed.

Example C57_merkle_case : leaves (p := 73) (t_merkle 2) ([cone; czero], ([czero; cone], tt)) = [cone; czero; czero; cone].
Proof. exact case_C57_merkle. Qed.
