(** C73: base64 and the vectors of numbers of the bindings. C74: the JSON of numbers,
    points, proofs and keys. *)

From Verif Require Export Bindings CodecClaims.
Open Scope Z_scope.

(** ** base64 *)
(** Lists, three elements at a time, and four *)
Lemma list_ind3 {A} (P : list A -> Prop) :
  P [] -> (forall a, P [a]) -> (forall a b, P [a; b]) -> (forall a b c l, P l -> P (a :: b :: c :: l)) -> forall l, P l.
Proof.
  intros H0 H1 H2 H3 l. remember (length l) as n eqn:E. assert (L : (length l <= n)%nat) by lia. clear E. revert l L.
  induction n as [|n IH]; intros [|a [|b [|c l]]] L; cbn in L; auto; try lia. apply H3, IH. lia.
Qed.
Lemma list_ind4 {A} (P : list A -> Prop) :
  P [] -> (forall a, P [a]) -> (forall a b, P [a; b]) -> (forall a b c, P [a; b; c]) ->
  (forall a b c d l, P l -> P (a :: b :: c :: d :: l)) -> forall l, P l.
Proof.
  intros H0 H1 H2 H3 H4 l. remember (length l) as n eqn:E. assert (L : (length l <= n)%nat) by lia. clear E. revert l L.
  induction n as [|n IH]; intros [|a [|b [|c [|d l]]]] L; cbn in L; auto; try lia. apply H4, IH. lia.
Qed.

(** The alphabet of RFC 4648, table 1 *)
Definition b64_alphabet : list Z :=
  map Z.of_nat (seq 65 26) ++ map Z.of_nat (seq 97 26) ++ map Z.of_nat (seq 48 10) ++ [43; 47].
Definition six (v : Z) : Prop := 0 <= v < 64.
Lemma six_enum (P : Z -> bool) : forallb P (map Z.of_nat (seq 0 64)) = true -> forall v, six v -> P v = true.
Proof.
  intros H v [L U]. rewrite forallb_forall in H. apply H. rewrite <- (Z2Nat.id v) by lia. apply in_map, in_seq. lia.
Qed.
Lemma b64_char_nth v : six v -> b64_char v = nth (Z.to_nat v) b64_alphabet 0.
Proof.
  intros H. apply Z.eqb_eq. revert v H. apply (six_enum (fun v => b64_char v =? nth (Z.to_nat v) b64_alphabet 0)). vm_compute. reflexivity.
Qed.
Lemma b64_val_char v : six v -> b64_val (b64_char v) = Some v.
Proof.
  intros H. enough (X : match b64_val (b64_char v) with Some w => w =? v | None => false end = true).
  { destruct (b64_val (b64_char v)); [|discriminate]. apply Z.eqb_eq in X. now subst. }
  revert v H. apply six_enum. vm_compute. reflexivity.
Qed.
Lemma b64_char_val c v : b64_val c = Some v -> six v /\ b64_char v = c.
Proof.
  unfold b64_val. intros H.
  repeat match type of H with context [if ?b then _ else _] => destruct b eqn:?; [injection H as <-|] end; try discriminate;
  repeat match goal with
  | X : (_ && _)%bool = true |- _ => apply Bool.andb_true_iff in X as [? ?]
  | X : (_ <=? _) = true |- _ => apply Z.leb_le in X
  | X : (_ =? _) = true |- _ => apply Z.eqb_eq in X
  end; subst; unfold six; (split; [lia|]); unfold b64_char;
  repeat match goal with |- context [if ?b then _ else _] => destruct b eqn:? end;
  repeat match goal with
  | X : (_ <? _) = true |- _ => apply Z.ltb_lt in X
  | X : (_ <? _) = false |- _ => apply Z.ltb_ge in X
  | X : (_ =? _) = true |- _ => apply Z.eqb_eq in X
  | X : (_ =? _) = false |- _ => apply Z.eqb_neq in X
  end; lia.
Qed.
Lemma b64_char_pad v : six v -> b64_char v <> 61.
Proof. intros H E. pose proof (b64_val_char v H) as X. rewrite E in X. discriminate. Qed.
Lemma b64_vals_chars vs : Forall six vs -> b64_vals (map b64_char vs) = Some vs.
Proof. induction 1 as [|v vs H _ IH]; cbn; auto. now rewrite (b64_val_char v H), IH. Qed.
Lemma b64_vals_inv s : forall vs, b64_vals s = Some vs -> Forall six vs /\ s = map b64_char vs.
Proof.
  induction s as [|c s IH]; cbn; intros vs H; [injection H as <-; auto|].
  destruct (b64_val c) as [v|] eqn:E; [|discriminate]. destruct (b64_vals s) as [w|]; [|discriminate]. cbn in H. injection H as <-.
  destruct (IH w eq_refl) as [H1 ->]. destruct (b64_char_val c v E) as [H2 <-]. auto.
Qed.

(** The symbols of a byte string, and how many '=' follow them *)
Fixpoint b64_symbols (bs : list Z) : list Z :=
  match bs with
  | [] => []
  | [a] => [a / 4; a mod 4 * 16]
  | [a; b] => [a / 4; a mod 4 * 16 + b / 16; b mod 16 * 4]
  | a :: b :: c :: bs => a / 4 :: a mod 4 * 16 + b / 16 :: b mod 16 * 4 + c / 64 :: c mod 64 :: b64_symbols bs
  end.
Definition b64_npad (n : nat) : nat := match Nat.modulo n 3 with 0%nat => 0 | 1%nat => 2 | _ => 1 end.
Lemma npad3 n : b64_npad (3 + n) = b64_npad n.
Proof. unfold b64_npad. replace (3 + n)%nat with (n + 1 * 3)%nat by lia. now rewrite Nat.mod_add. Qed.
Lemma b64_encode_symbols bs : b64_encode bs = map b64_char (b64_symbols bs) ++ repeat 61 (b64_npad (length bs)).
Proof.
  induction bs as [|a|a b|a b c bs IH] using list_ind3; try reflexivity.
  cbn [b64_encode b64_symbols map app length]. rewrite IH. change (S (S (S (length bs)))) with (3 + length bs)%nat. now rewrite npad3.
Qed.
Ltac dm := Z.div_mod_to_equations; lia.
Lemma b64_symbols_six bs : Forall byte bs -> Forall six (b64_symbols bs).
Proof.
  induction bs as [|a|a b|a b c bs IH] using list_ind3; intros H; repeat match goal with X : Forall _ (_ :: _) |- _ => inversion X; subst; clear X end;
  unfold byte in *; cbn [b64_symbols]; repeat (constructor; [unfold six; dm|]); auto.
Qed.
Lemma b64_groups_symbols bs : Forall byte bs -> b64_groups (b64_symbols bs) = Some bs.
Proof.
  induction bs as [|a|a b|a b c bs IH] using list_ind3; intros H; repeat match goal with X : Forall _ (_ :: _) |- _ => inversion X; subst; clear X end;
  unfold byte in *; cbn [b64_symbols b64_groups].
  - reflexivity.
  - rewrite (proj2 (Z.eqb_eq _ _)) by dm. do 2 f_equal. dm.
  - rewrite (proj2 (Z.eqb_eq _ _)) by dm. f_equal. f_equal; [dm|]. f_equal. dm.
  - rewrite IH by auto. cbn [option_map]. f_equal. f_equal; [dm|]. f_equal; [dm|]. f_equal. dm.
Qed.
Lemma b64_groups_inv vs : forall bs, Forall six vs -> b64_groups vs = Some bs -> Forall byte bs /\ vs = b64_symbols bs.
Proof.
  induction vs as [|a|a b|a b c|a b c d vs IH] using list_ind4; intros bs H E; cbn [b64_groups] in E;
  repeat match goal with X : Forall six (_ :: _) |- _ => inversion X; subst; clear X end; unfold six in *.
  - injection E as <-. auto.
  - discriminate.
  - destruct (b mod 16 =? 0) eqn:Z0; [|discriminate]. apply Z.eqb_eq in Z0. injection E as <-. cbn [b64_symbols].
    split; [repeat constructor; dm|]. f_equal; [dm|]. f_equal. dm.
  - destruct (c mod 4 =? 0) eqn:Z0; [|discriminate]. apply Z.eqb_eq in Z0. injection E as <-. cbn [b64_symbols].
    split; [repeat constructor; dm|]. f_equal; [dm|]. f_equal; [dm|]. f_equal. dm.
  - destruct (b64_groups vs) as [t|] eqn:G; [|discriminate]. cbn [option_map] in E. injection E as <-.
    destruct (IH t) as [I1 I2]; auto. cbn [b64_symbols]. split; [repeat (constructor; [unfold byte; dm|]); auto|].
    f_equal; [dm|]. f_equal; [dm|]. f_equal; [dm|]. f_equal; [dm|]. exact I2.
Qed.
Lemma b64_symbols_length bs : Nat.modulo (length (b64_symbols bs)) 4 = match Nat.modulo (length bs) 3 with 0%nat => 0%nat | 1%nat => 2%nat | _ => 3%nat end.
Proof.
  induction bs as [|a|a b|a b c bs IH] using list_ind3; try reflexivity. cbn [b64_symbols length].
  replace (S (S (S (S (length (b64_symbols bs)))))) with (length (b64_symbols bs) + 1 * 4)%nat by lia.
  replace (S (S (S (length bs)))) with (length bs + 1 * 3)%nat by lia. rewrite !Nat.mod_add by lia. exact IH.
Qed.

(** Taking the padding off *)
Lemma unpad_spec s : exists body k, s = body ++ repeat 61 k /\ b64_unpad s = (body, k) /\ (k <= 2)%nat /\
  (k = 2%nat \/ forall t, body <> t ++ [61]).
Proof.
  unfold b64_unpad. assert (X : s = rev (rev s)) by now rewrite rev_involutive. remember (rev s) as r eqn:Er. clear Er. subst s.
  destruct r as [|x r]; [exists [], 0%nat; repeat split; auto; right; intros [|? ?]; discriminate|].
  destruct (Z.eq_dec x 61) as [->|N].
  - destruct r as [|y r].
    + exists [], 1%nat. repeat split; auto. right; intros [|? ?]; discriminate.
    + destruct (Z.eq_dec y 61) as [->|N].
      * exists (rev r), 2%nat. split; [cbn; now rewrite <- app_assoc|]. auto.
      * exists (rev (y :: r)), 1%nat. split; [reflexivity|]. split.
        { destruct y as [|y|y]; try reflexivity. do 6 (destruct y; try reflexivity). congruence. }
        split; [lia|]. right. intros t E. cbn in E. apply app_inj_tail in E as [_ E]. auto.
  - exists (rev (x :: r)), 0%nat. split; [now rewrite app_nil_r|]. split.
    { destruct x as [|x|x]; try reflexivity. do 6 (destruct x; try reflexivity). congruence. }
    split; [lia|]. right. intros t E. cbn in E. apply app_inj_tail in E as [_ E]. auto.
Qed.
Lemma unpad_app body k : (k <= 2)%nat -> (forall t, body <> t ++ [61]) -> b64_unpad (body ++ repeat 61 k) = (body, k).
Proof.
  intros Hk N. destruct (unpad_spec (body ++ repeat 61 k)) as [b [j [E [U [Hj O]]]]]. rewrite U.
  assert (G : forall b b' i, b ++ repeat 61 i = b' -> (forall t, b' <> t ++ [61]) -> i = 0%nat /\ b = b').
  { intros c c' [|i] E' N'; [now rewrite app_nil_r in E'|]. exfalso. apply (N' (c ++ repeat 61 i)). rewrite <- E', <- app_assoc. f_equal.
    clear. induction i; cbn in *; congruence. }
  assert (C : forall n (x : list Z) (y : list Z) i, x ++ repeat 61 (n + i) = y ++ repeat 61 n -> x ++ repeat 61 i = y).
  { intros n x y i E'. rewrite Nat.add_comm, repeat_app, app_assoc in E'. now apply app_inv_tail in E'. }
  destruct (Nat.le_gt_cases k j) as [L|L].
  - replace j with (k + (j - k))%nat in E by lia. symmetry in E. apply C in E. destruct (G _ _ _ E N) as [E1 <-]. f_equal. lia.
  - replace k with (j + (k - j))%nat in E by lia. apply C in E. destruct O as [O|O]; [lia|].
    destruct (G _ _ _ E O) as [E1 _]. lia.
Qed.
Lemma chars_no_pad vs : Forall six vs -> forall t, map b64_char vs <> t ++ [61].
Proof.
  intros H t E. assert (X : In 61 (map b64_char vs)) by (rewrite E; apply in_or_app; right; now left).
  apply in_map_iff in X as [v [X I]]. rewrite Forall_forall in H. now apply (b64_char_pad v (H v I)).
Qed.

Lemma decode_symbols bs k : Forall byte bs -> (k <= b64_npad (length bs))%nat ->
  b64_decode (map b64_char (b64_symbols bs) ++ repeat 61 k) = Some bs.
Proof.
  intros B K. pose proof (b64_symbols_six bs B) as S6. unfold b64_decode.
  assert (K2 : (k <= 2)%nat) by (revert K; unfold b64_npad; destruct (Nat.modulo (length bs) 3) as [|[|?]]; lia).
  rewrite unpad_app by (auto; now apply chars_no_pad). rewrite map_length, b64_symbols_length, b64_vals_chars, b64_groups_symbols by auto.
  unfold b64_npad in K. destruct (Nat.modulo (length bs) 3) as [|[|?]]; destruct k as [|[|[|?]]]; cbn in *; auto; lia.
Qed.

(** What encode writes: the symbols of the alphabet whose base 64 number is the
    byte string as a number, shifted to whole symbols, and '=' up to a multiple of four. *)
Lemma claim_C73_base64_encode : forall bs, Forall byte bs -> exists vs k,
  b64_encode bs = map (fun v => nth (Z.to_nat v) b64_alphabet 0) vs ++ repeat 61 k /\
  (length (b64_encode bs) = 4 * ((length bs + 2) / 3))%nat /\
  (k <= 2 /\ 3 * ((length bs + 2) / 3) = length bs + k)%nat /\ Forall (fun v => 0 <= v < 64) vs /\
  fold_left (fun a v => 64 * a + v) vs 0 = be_val bs * 4 ^ Z.of_nat k.
Proof.
  intros bs B. exists (b64_symbols bs), (b64_npad (length bs)). pose proof (b64_symbols_six bs B) as S6. split; [|split; [|split; [|split]]].
  - rewrite b64_encode_symbols. f_equal. apply map_ext_in. intros v Hv. apply b64_char_nth. rewrite Forall_forall in S6. auto.
  - clear. induction bs as [|a|a b|a b c bs IH] using list_ind3; try reflexivity. cbn [b64_encode length]. rewrite IH.
    replace (S (S (S (length bs))) + 2)%nat with (length bs + 2 + 1 * 3)%nat by lia. rewrite Nat.div_add by lia. lia.
  - clear. induction bs as [|a|a b|a b c bs [IH1 IH2]] using list_ind3; try (cbn; lia). cbn [length].
    change (S (S (S (length bs)))) with (3 + length bs)%nat. rewrite npad3. split; auto.
    replace (3 + length bs + 2)%nat with (length bs + 2 + 1 * 3)%nat by lia. rewrite Nat.div_add by lia. lia.
  - exact S6.
  - clear S6. assert (A : forall vs a, fold_left (fun a v => 64 * a + v) vs a = a * 64 ^ Z.of_nat (length vs) + fold_left (fun a v => 64 * a + v) vs 0).
    { induction vs as [|v vs IH]; intros a; cbn [fold_left length]; [cbn; lia|]. rewrite IH, (IH (64 * 0 + v)).
      rewrite Nat2Z.inj_succ, Z.pow_succ_r by lia. ring. }
    assert (L : forall bs, 64 ^ Z.of_nat (length (b64_symbols bs)) = 256 ^ Z.of_nat (length bs) * 4 ^ Z.of_nat (b64_npad (length bs))).
    { induction bs0 as [|a|a b|a b c l IH] using list_ind3; try reflexivity. cbn [b64_symbols length].
      change (S (S (S (length l)))) with (3 + length l)%nat. rewrite npad3.
      replace (Z.of_nat (S (S (S (S (length (b64_symbols l))))))) with (4 + Z.of_nat (length (b64_symbols l))) by lia.
      rewrite Nat2Z.inj_add, !Z.pow_add_r by lia. rewrite IH. change (Z.of_nat 3) with 3. change (64 ^ 4) with (256 ^ 3). ring. }
    induction bs as [|a|a b|a b c bs IH] using list_ind3; repeat match goal with X : Forall _ (_ :: _) |- _ => inversion X; subst; clear X end;
    unfold byte in *; cbn [b64_symbols fold_left].
    + reflexivity.
    + change (be_val [a]) with (256 * 0 + a). change (4 ^ Z.of_nat (b64_npad (length [a]))) with 16. dm.
    + change (be_val [a; b]) with (256 * (256 * 0 + a) + b). change (4 ^ Z.of_nat (b64_npad (length [a; b]))) with 4. dm.
    + rewrite A, IH, L by auto. cbn [length]. change (S (S (S (length bs)))) with (3 + length bs)%nat. rewrite npad3.
      rewrite !be_val_cons. cbn [length]. rewrite !Nat2Z.inj_succ, !Z.pow_succ_r by lia.
      assert (E : 64 * (64 * (64 * (64 * 0 + a / 4) + (a mod 4 * 16 + b / 16)) + (b mod 16 * 4 + c / 64)) + c mod 64 = 65536 * a + 256 * b + c) by dm.
      rewrite E. ring.
Qed.
Lemma case_C73_base64_encode : b64_encode [77; 97; 110; 77; 97] = [84; 87; 70; 117; 84; 87; 69; 61] /\ nth 63 b64_alphabet 0 = 47.
Proof. split; reflexivity. Qed.
(** What decode accepts: exactly the encodings, with none, some or all of the '='. *)
Lemma claim_C73_base64_decode : forall s bs,
  b64_decode s = Some bs <-> Forall byte bs /\ exists k, s ++ repeat 61 k = b64_encode bs.
Proof.
  intros s bs. split.
  - intros H. unfold b64_decode in H. destruct (unpad_spec s) as [body [k [-> [U [K _]]]]]. rewrite U in H.
    destruct ((_ <=? 4)%nat && _)%bool eqn:C; [|discriminate]. apply Bool.andb_true_iff in C as [C1 C2]. apply Nat.leb_le in C1.
    destruct (b64_vals body) as [vs|] eqn:V; [|discriminate]. apply b64_vals_inv in V as [S6 ->].
    apply b64_groups_inv in H as [B ->]; auto. split; auto. rewrite map_length, b64_symbols_length in *.
    exists (b64_npad (length bs) - k)%nat. rewrite b64_encode_symbols, <- app_assoc, <- repeat_app. do 2 f_equal.
    unfold b64_npad. destruct (Nat.modulo (length bs) 3) as [|[|?]]; destruct k as [|[|[|?]]]; cbn in *; auto; try lia; discriminate.
  - intros [B [k E]]. rewrite b64_encode_symbols in E.
    assert (X : exists j, s = map b64_char (b64_symbols bs) ++ repeat 61 j /\ (j <= b64_npad (length bs))%nat).
    { destruct (Nat.le_gt_cases k (b64_npad (length bs))) as [L|L].
      - exists (b64_npad (length bs) - k)%nat. split; [|lia]. replace (b64_npad (length bs)) with (b64_npad (length bs) - k + k)%nat in E by lia.
        rewrite repeat_app, app_assoc in E. now apply app_inv_tail in E.
      - exfalso. replace k with (S (k - b64_npad (length bs) - 1) + b64_npad (length bs))%nat in E by lia.
        rewrite repeat_app, app_assoc in E. apply app_inv_tail in E.
        apply (chars_no_pad _ (b64_symbols_six bs B) (s ++ repeat 61 (k - b64_npad (length bs) - 1))). rewrite <- E, <- app_assoc. f_equal.
        generalize (k - b64_npad (length bs) - 1)%nat as n. clear. induction n; cbn in *; congruence. }
    destruct X as [j [-> J]]. now apply decode_symbols.
Qed.
Lemma case_C73_base64_decode : Forall byte [77] /\ map b64_decode [[84; 81; 61; 61]; [84; 81; 61]; [84; 81]; [84; 82; 61; 61]; [84]; [84; 81; 61; 61; 10]] =
  [Some [77]; Some [77]; Some [77]; None; None; None].
Proof. split; [repeat constructor; unfold byte; lia|reflexivity]. Qed.
Lemma b64_roundtrip bs : Forall byte bs -> b64_decode (b64_encode bs) = Some bs.
Proof. intros B. apply claim_C73_base64_decode. split; auto. exists 0%nat. apply app_nil_r. Qed.

(** ** Vectors of numbers *)
Section Vec.
Context {p : positive}.
Notation F := (Num p).
Notation sz := (8 * num_limbs p)%nat.
Definition be_num (a : F) : list Z := be_bytes sz (nval a).
Lemma write_be_num (a : F) : write_be (into_repr a) = be_num a.
Proof. apply write_be_limbs. Qed.
Lemma be_num_len (a : F) : length (be_num a) = sz.
Proof. apply be_bytes_length. Qed.
Lemma be_num_val (a : F) : be_val (be_num a) = nval a.
Proof. unfold be_num. rewrite be_val_be_bytes. apply Z.mod_small, nval_lt_bytes. Qed.
Lemma be_nums_len (nums : list F) : length (concat (map be_num nums)) = (sz * length nums)%nat.
Proof. induction nums as [|a l IH]; cbn [map concat length]; [lia|]. rewrite app_length, IH, be_num_len. lia. Qed.
Lemma be_nums_bytes (nums : list F) : Forall byte (concat (map be_num nums)).
Proof. induction nums as [|a l IH]; cbn [map concat]; [constructor|]. apply Forall_app. split; auto. apply be_bytes_byte. Qed.
Lemma write_nums_ok (nums : list F) : forall i pre, length pre = (sz * i)%nat ->
  write_nums i nums (pre ++ repeat 0 (sz * length nums)) = Ok (pre ++ concat (map be_num nums)).
Proof.
  induction nums as [|a l IH]; intros i pre L; cbn [write_nums length map concat].
  - now rewrite Nat.mul_0_r.
  - unfold write_at, repr_sz. rewrite write_be_num, be_num_len, app_length, repeat_length, L.
    rewrite (proj2 (Nat.leb_le _ _)) by lia. cbn [rassert rbind].
    rewrite <- L, firstn_app, firstn_all, Nat.sub_diag, firstn_O, app_nil_r, skipn_app.
    rewrite (skipn_all2 pre) by lia. replace (length pre + sz - length pre)%nat with sz by lia. cbn [app].
    replace (sz * S (length l))%nat with (sz + sz * length l)%nat by lia. rewrite repeat_app, skipn_app, repeat_length, Nat.sub_diag.
    rewrite (skipn_all2 (repeat 0 sz)) by now rewrite repeat_length. cbn [app skipn].
    rewrite app_assoc, IH; [now rewrite <- app_assoc|]. rewrite app_length, be_num_len, L. lia.
Qed.
Lemma read_num_spec data : @read_num p data =
  if Nat.leb sz (length data) then (if be_val (firstn sz data) <? Zpos p then Some (num (be_val (firstn sz data))) else None) else None.
Proof.
  unfold read_num, read_be. pose proof (read_be_acc_spec (num_limbs p) [] data) as X. destruct (Nat.leb sz (length data)).
  - destruct X as [t [-> [_ E]]]. rewrite app_nil_r. unfold from_repr. now rewrite E.
  - now rewrite X.
Qed.
Lemma read_num_app (a : F) rest : read_num (be_num a ++ rest) = Some a.
Proof.
  rewrite read_num_spec, app_length, be_num_len. rewrite (proj2 (Nat.leb_le _ _)) by lia.
  replace (firstn sz (be_num a ++ rest)) with (be_num a) by (rewrite <- (be_num_len a), firstn_app, firstn_all, Nat.sub_diag; cbn [firstn]; now rewrite app_nil_r).
  rewrite be_num_val.
  pose proof (nval_range a). rewrite (proj2 (Z.ltb_lt _ _)) by lia. now rewrite num_nval.
Qed.
Lemma read_num_inv data (a : F) : Forall byte data -> read_num data = Some a -> firstn sz data = be_num a.
Proof.
  intros B. rewrite read_num_spec. destruct (Nat.leb_spec sz (length data)) as [L|L]; [|discriminate].
  destruct (Z.ltb_spec (be_val (firstn sz data)) (Zpos p)) as [V|V]; [|discriminate]. intros E. assert (a = num (be_val (firstn sz data))) as -> by congruence.
  assert (B' : Forall byte (firstn sz data)) by (rewrite <- (firstn_skipn sz data) in B; now apply Forall_app in B).
  unfold be_num. rewrite nval_num, Z.mod_small by (pose proof (be_val_range _ B'); lia).
  rewrite <- (be_bytes_be_val _ B') at 1. now rewrite firstn_length_le.
Qed.
Lemma read_offsets_ok (nums : list F) : forall off pre rest, length pre = off ->
  read_offsets (length nums) off (pre ++ concat (map be_num nums) ++ rest) = Some nums.
Proof.
  induction nums as [|a l IH]; intros off pre rest L; cbn [length read_offsets map concat]; auto.
  rewrite <- L, skipn_app, skipn_all, Nat.sub_diag. cbn [app skipn]. rewrite <- app_assoc, read_num_app.
  rewrite (app_assoc pre), IH; auto. rewrite app_length, be_num_len. reflexivity.
Qed.
Lemma read_offsets_inv n : forall off data (nums : list F), Forall byte data -> (off + sz * n <= length data)%nat ->
  read_offsets n off data = Some nums -> firstn (sz * n) (skipn off data) = concat (map be_num nums).
Proof.
  induction n as [|n IH]; intros off data nums B L E; cbn [read_offsets] in E.
  - injection E as <-. now rewrite Nat.mul_0_r.
  - destruct (read_num (skipn off data)) as [x|] eqn:E1; [|discriminate]. destruct (read_offsets n (off + @repr_sz p) data) as [l|] eqn:E2; [|discriminate].
    cbn in E. injection E as <-. assert (B' : Forall byte (skipn off data)) by (rewrite <- (firstn_skipn off data) in B; now apply Forall_app in B).
    apply read_num_inv in E1; auto. apply IH in E2; auto; [|unfold repr_sz; lia]. cbn [map concat]. rewrite <- E1, <- E2.
    assert (SS : skipn (off + @repr_sz p) data = skipn sz (skipn off data)).
    { unfold repr_sz. clear. revert data. induction off as [|off IH]; intros [|x data]; cbn [Nat.add skipn]; auto. now rewrite skipn_nil. }
    rewrite SS.
    replace (sz * S n)%nat with (sz + sz * n)%nat by lia. generalize (skipn off data) as d. intros d.
    rewrite <- (firstn_skipn sz d) at 1. rewrite firstn_app.
    destruct (Nat.le_gt_cases sz (length d)) as [Q|Q].
    + rewrite firstn_length_le by auto. rewrite (firstn_all2 (firstn sz d)) by (rewrite firstn_length_le; lia). do 2 f_equal. lia.
    + rewrite (skipn_all2 d) by lia. rewrite !firstn_nil, !app_nil_r. apply firstn_all2. rewrite firstn_length. lia.
Qed.
End Vec.

(** num_vec_to_buf never panics and writes each number big endian in whole limbs. *)
Lemma claim_C73_vec_write : forall p (nums : list (Num p)),
  num_vec_to_buf nums = Ok (concat (map (fun a => be_bytes (8 * num_limbs p) (nval a)) nums)).
Proof. intros p nums. apply (write_nums_ok nums 0 []). cbn. lia. Qed.
Lemma case_C73_vec_write : num_vec_to_buf [num 258; num 7 : Num bn_ord] =
  Ok (repeat 0 30 ++ [1; 2] ++ repeat 0 31 ++ [7]).
Proof. vm_compute. reflexivity. Qed.
(** read_num_vec accepts exactly these buffers, and gives the numbers back. *)
Lemma claim_C73_vec_read : forall p (buf : list Z) (nums : list (Num p)), Forall byte buf ->
  (read_num_vec buf = Some nums <-> buf = concat (map (fun a => be_bytes (8 * num_limbs p) (nval a)) nums)).
Proof.
  intros p buf nums B. change (fun a : Num p => be_bytes (8 * num_limbs p) (nval a)) with (@be_num p).
  pose proof (num_limbs_pos (p := p)) as LP. assert (NZ : (8 * num_limbs p <> 0)%nat) by lia. unfold read_num_vec. fold (@repr_sz p). split.
  - intros E. destruct (Nat.eqb_spec (Nat.modulo (length buf) (@repr_sz p)) 0) as [M|M]; [|discriminate].
    pose proof (Nat.div_mod (length buf) (@repr_sz p) NZ) as D. rewrite M in D.
    apply read_offsets_inv in E; auto; [|unfold repr_sz in *; lia]. rewrite <- E. cbn [skipn]. symmetry. apply firstn_all2. unfold repr_sz in *. lia.
  - intros ->. rewrite be_nums_len. change (8 * num_limbs p)%nat with (@repr_sz p).
    rewrite (Nat.mul_comm (@repr_sz p)), Nat.mod_mul, Nat.div_mul by exact NZ. cbn [Nat.eqb].
    pose proof (read_offsets_ok nums 0 [] [] eq_refl) as X. now rewrite app_nil_r in X.
Qed.
Lemma case_C73_vec_read : Forall byte (repeat 0 31 ++ [7]) /\ read_num_vec (p := bn_ord) (repeat 0 31 ++ [7]) = Some [num 7] /\
  read_num_vec (p := bn_ord) (repeat 0 30 ++ [7]) = None /\ read_num_vec (p := bn_ord) (repeat 255 32) = None.
Proof. split; [|split; [|split]; vm_compute; reflexivity]. apply Forall_app. split; [|repeat constructor; unfold byte; lia]. cbn. repeat constructor; unfold byte; lia. Qed.

(** ** JSON *)
Section Js.
Context {q : positive}.
Hypothesis FB : Nat.eqb (num_bytes q) (8 * num_limbs q) = true.
Hypothesis Q1 : 1 < Zpos q.
Lemma num_json (a : Num q) : exists j, num_ser a = Ok j /\ num_de j = Ok (Some a).
Proof. destruct (claim_C48_roundtrip q a FB Q1) as [s [E1 [E2 _]]]. exists (JStr s). unfold num_ser, num_de. now rewrite E1. Qed.
Lemma pair_json {A} ser de (x y : A) : (forall x, exists j, ser x = Ok j /\ de j = Ok (Some x)) ->
  exists j, pair_ser ser x y = Ok j /\ pair_de de j = Ok (Some (x, y)).
Proof.
  intros H. destruct (H x) as [a [A1 A2]], (H y) as [b [B1 B2]]. unfold pair_ser. rewrite A1, B1. eexists. split; [reflexivity|].
  cbn [pair_de]. unfold both. rewrite A2. cbn [rbind]. rewrite B2. reflexivity.
Qed.
Lemma g1_json_ok (d : G1Data q) : exists j, g1_json d = Ok j /\ g1_unjson j = Ok (Some d).
Proof. destruct d as [x y]. apply pair_json. exact num_json. Qed.
Lemma g2_json_ok (d : G2Data q) : exists j, g2_json d = Ok j /\ g2_unjson j = Ok (Some d).
Proof. destruct d as [x y]. apply pair_json. intros [u v]. apply pair_json. exact num_json. Qed.
Lemma vec_json_ok {A} ser de (l : list A) : (forall x, exists j, ser x = Ok j /\ de j = Ok (Some x)) ->
  exists j, vec_json ser l = Ok j /\ vec_unjson de j = Ok (Some l).
Proof.
  intros H. enough (X : exists js, rmapM ser l = Ok js /\ vec_unjson_list de js = Ok (Some l)).
  { destruct X as [js [E1 E2]]. exists (JArr js). unfold vec_json. rewrite E1. auto. }
  induction l as [|x l [js [E1 E2]]]; [exists []; auto|]. destruct (H x) as [j [J1 J2]]. exists (j :: js). cbn [rmapM]. rewrite J1. cbn [rbind]. rewrite E1.
  split; [reflexivity|]. cbn [vec_unjson_list]. unfold both. rewrite J2. cbn [rbind]. rewrite E2. reflexivity.
Qed.
Lemma pd_json_ok (d : ProofData q) : exists j, pd_json d = Ok j /\ pd_unjson j = Ok (Some d).
Proof.
  destruct (g1_json_ok (pd_a d)) as [a [A1 A2]], (g2_json_ok (pd_b d)) as [b [B1 B2]], (g1_json_ok (pd_c d)) as [c [C1 C2]].
  unfold pd_json. rewrite A1, B1, C1. eexists. split; [reflexivity|]. unfold pd_unjson.
  replace (fields [k_a; k_b; k_c] _) with (Some [a; b; c]) by reflexivity.
  unfold both. rewrite A2. cbn [rbind]. rewrite B2. cbn [rbind]. rewrite C2. destruct d; reflexivity.
Qed.
Lemma vd_json_ok (d : VKData q) : exists j, vd_json d = Ok j /\ vd_unjson j = Ok (Some d).
Proof.
  destruct (g1_json_ok (vd_alpha d)) as [a [A1 A2]], (g2_json_ok (vd_beta d)) as [b [B1 B2]], (g2_json_ok (vd_gamma d)) as [c [C1 C2]],
    (g2_json_ok (vd_delta d)) as [e [D1 D2]], (vec_json_ok g1_json g1_unjson (vd_ic d) g1_json_ok) as [i [I1 I2]].
  unfold vd_json. rewrite A1, B1, C1, D1, I1. eexists. split; [reflexivity|]. unfold vd_unjson.
  replace (fields [k_alpha_g1; k_beta_g2; k_gamma_g2; k_delta_g2; k_ic] _) with (Some [a; b; c; e; i]) by reflexivity.
  unfold both. rewrite A2. cbn [rbind]. rewrite B2. cbn [rbind]. rewrite C2. cbn [rbind]. rewrite D2. cbn [rbind]. rewrite I2. destruct d; reflexivity.
Qed.
End Js.

(** Writing and reading back, in a field whose byte size is its limb size *)
Lemma claim_C74_roundtrip : forall (q : positive) (pd : ProofData q) (vd : VKData q) (nums : list (Num q)),
  Nat.eqb (num_bytes q) (8 * num_limbs q) = true -> 1 < Zpos q ->
  (exists j, pd_json pd = Ok j /\ pd_unjson j = Ok (Some pd)) /\
  (exists j, vd_json vd = Ok j /\ vd_unjson j = Ok (Some vd)) /\
  (exists j, vec_json num_ser nums = Ok j /\ vec_unjson num_de j = Ok (Some nums)).
Proof.
  intros q pd vd nums H1 H2. split; [now apply pd_json_ok|]. split; [now apply vd_json_ok|]. apply vec_json_ok. now apply num_json.
Qed.
Lemma case_C74_roundtrip : Nat.eqb (num_bytes bn_q) (8 * num_limbs bn_q) = true /\ Nat.eqb (num_bytes bn_ord) (8 * num_limbs bn_ord) = true /\
  vec_json num_ser [num 5; num 12 : Num bn_ord] = Ok (JArr [JStr [53]; JStr [49; 50]]).
Proof. repeat split; vm_compute; reflexivity. Qed.

(** What a number, a point, a proof may look like: decimal strings below the modulus,
    arrays of exactly two, objects in which every field occurs exactly once (in any
    order, with any other keys), or arrays with the fields in order. *)
Definition json_num {q} (j : json) (a : Num q) : Prop := exists s, j = JStr s /\ biguint_from_str s = Some (nval a).
Definition json_pair {A} (P : json -> A -> Prop) (j : json) (x : A * A) : Prop :=
  exists a b, j = JArr [a; b] /\ P a (fst x) /\ P b (snd x).
Definition once (m : list (list Z * json)) (k : list Z) (j : json) : Prop :=
  exists m1 m2, m = m1 ++ (k, j) :: m2 /\ ~ In k (map fst m1) /\ ~ In k (map fst m2).
Definition json_struct (ks : list (list Z)) (j : json) (js : list json) : Prop :=
  j = JArr js /\ length js = length ks \/ exists m, j = JObj m /\ Forall2 (once m) ks js.
Lemma keyb_eq a b : keyb a b = true <-> a = b.
Proof. unfold keyb. destruct (list_eq_dec Z.eq_dec a b); split; congruence. Qed.
Lemma filter_none (m : list (list Z * json)) k : filter (fun kv => keyb (fst kv) k) m = [] <-> ~ In k (map fst m).
Proof.
  induction m as [|[k' j] m IH]; cbn; [tauto|]. destruct (keyb k' k) eqn:E.
  - apply keyb_eq in E as ->. split; [discriminate|tauto].
  - rewrite IH. split; [|tauto]. intros H [->|X]; [|auto]. rewrite (proj2 (keyb_eq k k) eq_refl) in E. discriminate.
Qed.
Lemma field_once m k j : field m k = Some j <-> once m k j.
Proof.
  unfold field, once. split.
  - destruct (filter _ m) as [|[k' j'] [|? ?]] eqn:E; try discriminate. cbn [snd]. intros [= ->]. revert E.
    induction m as [|[k1 j1] m IH]; cbn; [discriminate|]. destruct (keyb k1 k) eqn:K; intros E.
    + apply keyb_eq in K as ->. injection E as -> -> E. exists [], m. split; [reflexivity|]. split; [tauto|]. now apply filter_none.
    + destruct (IH E) as [m1 [m2 [-> [H1 H2]]]]. exists ((k1, j1) :: m1), m2. split; [reflexivity|]. split; auto. cbn. intros [->|X]; auto.
      rewrite (proj2 (keyb_eq k k) eq_refl) in K. discriminate.
  - intros [m1 [m2 [-> [H1 H2]]]]. rewrite filter_app. cbn [filter fst]. rewrite (proj2 (keyb_eq k k) eq_refl).
    apply filter_none in H1, H2. rewrite H1, H2. reflexivity.
Qed.
Lemma collect_fields m ks : forall js, collect_options (map (field m) ks) = Some js <-> Forall2 (once m) ks js.
Proof.
  induction ks as [|k ks IH]; intros js; cbn [map collect_options].
  - split; [intros [= <-]; constructor|inversion 1; auto].
  - destruct (field m k) as [j|] eqn:E.
    + destruct (collect_options (map (field m) ks)) as [t|]; cbn [option_map]; split.
      * intros [= <-]. constructor; [now apply field_once|]. now apply IH.
      * inversion 1; subst. apply field_once in H2. apply IH in H4. congruence.
      * discriminate.
      * inversion 1; subst. apply IH in H4. discriminate.
    + split; [discriminate|]. inversion 1; subst. apply field_once in H2. congruence.
Qed.
Lemma fields_struct ks j js : fields ks j = Some js <-> json_struct ks j js.
Proof.
  unfold fields, json_struct. destruct j as [s|l|m|].
  - split; [discriminate|]. intros [[X _]|[m [X _]]]; discriminate.
  - destruct (Nat.eqb_spec (length l) (length ks)) as [E|E]; split; try discriminate.
    + intros [= ->]. auto.
    + intros [[[= ->] _]|[m [X _]]]; [auto|discriminate].
    + intros [[[= ->] L]|[m [X _]]]; [contradiction|discriminate].
  - rewrite collect_fields. split; [eauto|]. intros [[X _]|[m' [[= <-] X]]]; [discriminate|auto].
  - split; [discriminate|]. intros [[X _]|[m [X _]]]; discriminate.
Qed.
Lemma forall2_len {A B} (R : A -> B -> Prop) l l' : Forall2 R l l' -> length l' = length l.
Proof. induction 1; cbn; auto. Qed.
Section JsExact.
Context {q : positive}.
Hypothesis FB : Nat.eqb (num_bytes q) (8 * num_limbs q) = true.
Hypothesis Q1 : 1 < Zpos q.
(** No result is a panic, and a value comes out iff the JSON has the form. *)
Definition reads {A} (de : json -> res (option A)) (P : json -> A -> Prop) : Prop :=
  forall j, exists o, de j = Ok o /\ forall a, o = Some a <-> P j a.
Lemma num_reads : reads (@num_de q) json_num.
Proof.
  intros [s|l|m|]; cbn [num_de].
  - rewrite claim_C48_exact by auto. eexists. split; [reflexivity|]. intros a. unfold json_num. split.
    + destruct (biguint_from_str s) as [v|] eqn:E; [|discriminate]. destruct (Z.ltb_spec v (Zpos q)) as [L|L]; [|discriminate].
      intros H. assert (a = num v) as -> by congruence. exists s. split; auto. rewrite nval_num, Z.mod_small; auto. split; auto. eapply biguint_from_str_nonneg; eauto.
    + intros [s' [[= <-] ->]]. pose proof (nval_range a). rewrite (proj2 (Z.ltb_lt _ _)) by lia. now rewrite num_nval.
  - exists None. split; auto. intros a. split; [discriminate|]. intros [s [X _]]. discriminate.
  - exists None. split; auto. intros a. split; [discriminate|]. intros [s [X _]]. discriminate.
  - exists None. split; auto. intros a. split; [discriminate|]. intros [s [X _]]. discriminate.
Qed.
Lemma both_reads {A B} (x : res (option A)) (y : res (option B)) (P : A -> Prop) (Q : B -> Prop) :
  (exists o, x = Ok o /\ forall a, o = Some a <-> P a) -> (exists o, y = Ok o /\ forall a, o = Some a <-> Q a) ->
  exists o, both x y = Ok o /\ forall ab, o = Some ab <-> P (fst ab) /\ Q (snd ab).
Proof.
  intros [o1 [-> H1]] [o2 [-> H2]]. unfold both. destruct o1 as [a|]; cbn [rbind].
  - eexists. split; [reflexivity|]. intros [a' b']. cbn [fst snd]. rewrite <- H1, <- H2. destruct o2 as [b|]; cbn [option_map].
    + split; [intros E; split; congruence|]. intros [E1 E2]. congruence.
    + split; [discriminate|]. intros [_ X]. discriminate.
  - exists None. split; auto. intros [a' b']. cbn [fst snd]. rewrite <- H1. split; [discriminate|]. intros [X _]. discriminate.
Qed.
Lemma pair_reads {A} de (P : json -> A -> Prop) : reads de P -> reads (pair_de de) (json_pair P).
Proof.
  intros H j. unfold json_pair.
  assert (N : (forall a b, j <> JArr [a; b]) -> forall x : A * A, None = Some x <-> exists a b, j = JArr [a; b] /\ P a (fst x) /\ P b (snd x)).
  { intros N x. split; [discriminate|]. intros [a [b [X _]]]. now apply N in X. }
  destruct j as [s|[|a [|b [|c l]]]|m|]; cbn [pair_de]; try (exists None; split; [reflexivity|apply N; intros; congruence]).
  destruct (both_reads _ _ _ _ (H a) (H b)) as [o [E X]]. exists o. split; auto. intros x. rewrite X. split.
  - intros [X1 X2]. eauto 6.
  - intros [a' [b' [[= <- <-] X']]]. exact X'.
Qed.
Lemma vec_reads {A} de (P : json -> A -> Prop) : reads de P -> reads (vec_unjson de) (fun j l => exists js, j = JArr js /\ Forall2 P js l).
Proof.
  intros H j. destruct j as [s|js|m|]; cbn [vec_unjson]; try (exists None; split; [reflexivity|intros a; split; [discriminate|intros [x [X _]]; discriminate]]).
  enough (X : exists o, vec_unjson_list de js = Ok o /\ forall l, o = Some l <-> Forall2 P js l).
  { destruct X as [o [E X]]. exists o. split; auto. intros l. rewrite X. split; [eauto|]. intros [js' [[= <-] Y]]. exact Y. }
  induction js as [|j js IH]; cbn [vec_unjson_list].
  - eexists. split; [reflexivity|]. intros l. split; [intros [= <-]; constructor|inversion 1; auto].
  - destruct (both_reads _ _ _ _ (H j) IH) as [o [-> X]]. cbn [rbind]. eexists. split; [reflexivity|]. intros l.
    destruct o as [[a t]|]; cbn [option_map fst snd].
    + destruct (proj1 (X (a, t)) eq_refl) as [Y1 Y2]. cbn [fst snd] in *. split; [intros [= <-]; constructor; auto|].
      inversion 1; subst. assert (E : Some (a, t) = Some (y, l')) by (apply X; auto). congruence.
    + split; [discriminate|]. inversion 1; subst. assert (E : None = Some (y, l')) by (apply X; auto). discriminate.
Qed.
Lemma pd_reads : reads (@pd_unjson q) (fun j d => exists a b c, json_struct [k_a; k_b; k_c] j [a; b; c] /\
  json_pair json_num a (pd_a d) /\ json_pair (json_pair json_num) b (pd_b d) /\ json_pair json_num c (pd_c d)).
Proof.
  intros j. unfold pd_unjson. destruct (fields [k_a; k_b; k_c] j) as [js|] eqn:E.
  2: { exists None. split; auto. intros d. split; [discriminate|]. intros [a [b [c [X _]]]]. apply fields_struct in X. congruence. }
  assert (L : forall js', fields [k_a; k_b; k_c] j = Some js' -> js' = js) by (intros; congruence). pose proof E as E'. apply fields_struct in E.
  assert (length js = 3%nat) as L3 by (destruct E as [[_ X]|[m [_ X]]]; [exact X|]; apply forall2_len in X; exact X).
  destruct js as [|a [|b [|c [|? ?]]]]; try discriminate.
  destruct (both_reads _ _ _ _ (pair_reads _ _ num_reads a) (both_reads _ _ _ _ (pair_reads _ _ (pair_reads _ _ num_reads) b) (pair_reads _ _ num_reads c))) as [o [Eo X]].
  match goal with |- context [rbind ?x _] => replace x with (Ok o) by (symmetry; exact Eo) end. cbn [rbind]. eexists. split; [reflexivity|]. intros [da db dc]. cbn [pd_a pd_b pd_c]. split.
  - intros H. destruct o as [[x [y z]]|]; [|discriminate]. cbn [option_map fst snd] in H. injection H as <- <- <-.
    destruct (proj1 (X _) eq_refl) as [X1 [X2 X3]]. cbn [fst snd] in *. exists a, b, c. auto.
  - intros [a' [b' [c' [F H]]]]. apply fields_struct in F. apply L in F. injection F as -> -> ->.
    assert (Y : o = Some (da, (db, dc))) by (apply X; exact H). now rewrite Y.
Qed.
Lemma vd_reads : reads (@vd_unjson q) (fun j d => exists a b c e i, json_struct [k_alpha_g1; k_beta_g2; k_gamma_g2; k_delta_g2; k_ic] j [a; b; c; e; i] /\
  json_pair json_num a (vd_alpha d) /\ json_pair (json_pair json_num) b (vd_beta d) /\ json_pair (json_pair json_num) c (vd_gamma d) /\
  json_pair (json_pair json_num) e (vd_delta d) /\ exists js, i = JArr js /\ Forall2 (json_pair json_num) js (vd_ic d)).
Proof.
  intros j. unfold vd_unjson. destruct (fields [k_alpha_g1; k_beta_g2; k_gamma_g2; k_delta_g2; k_ic] j) as [js|] eqn:E.
  2: { exists None. split; auto. intros d. split; [discriminate|]. intros [a [b [c [e [i [X _]]]]]]. apply fields_struct in X. congruence. }
  assert (L : forall js', fields [k_alpha_g1; k_beta_g2; k_gamma_g2; k_delta_g2; k_ic] j = Some js' -> js' = js) by (intros; congruence). apply fields_struct in E.
  assert (length js = 5%nat) as L3 by (destruct E as [[_ X]|[m [_ X]]]; [exact X|]; apply forall2_len in X; exact X).
  destruct js as [|a [|b [|c [|e [|i [|? ?]]]]]]; try discriminate.
  pose proof (pair_reads _ _ num_reads) as R1. pose proof (pair_reads _ _ R1) as R2. pose proof (vec_reads _ _ R1) as RV.
  destruct (both_reads _ _ _ _ (R1 a) (both_reads _ _ _ _ (R2 b) (both_reads _ _ _ _ (R2 c) (both_reads _ _ _ _ (R2 e) (RV i))))) as [o [Eo X]].
  match goal with |- context [rbind ?x _] => replace x with (Ok o) by (symmetry; exact Eo) end. cbn [rbind]. eexists. split; [reflexivity|].
  intros [da db dc de di]. cbn [vd_alpha vd_beta vd_gamma vd_delta vd_ic]. split.
  - intros H. destruct o as [[x [y [z [w v]]]]|]; [|discriminate]. cbn [option_map fst snd] in H. injection H as <- <- <- <- <-.
    destruct (proj1 (X _) eq_refl) as [X1 [X2 [X3 [X4 X5]]]]. cbn [fst snd] in *. exists a, b, c, e, i. auto 6.
  - intros [a' [b' [c' [e' [i' [F H]]]]]]. apply fields_struct in F. apply L in F. injection F as -> -> -> -> ->.
    assert (Y : o = Some (da, (db, (dc, (de, di))))) by (apply X; exact H). now rewrite Y.
Qed.
End JsExact.
Lemma claim_C74_exact : forall (q : positive) (j : json),
  Nat.eqb (num_bytes q) (8 * num_limbs q) = true -> 1 < Zpos q ->
  (exists o, pd_unjson j = Ok o /\ forall d : ProofData q, o = Some d <->
     exists a b c, json_struct [k_a; k_b; k_c] j [a; b; c] /\
       json_pair json_num a (pd_a d) /\ json_pair (json_pair json_num) b (pd_b d) /\ json_pair json_num c (pd_c d)) /\
  (exists o, vd_unjson j = Ok o /\ forall d : VKData q, o = Some d <->
     exists a b c e i, json_struct [k_alpha_g1; k_beta_g2; k_gamma_g2; k_delta_g2; k_ic] j [a; b; c; e; i] /\
       json_pair json_num a (vd_alpha d) /\ json_pair (json_pair json_num) b (vd_beta d) /\
       json_pair (json_pair json_num) c (vd_gamma d) /\ json_pair (json_pair json_num) e (vd_delta d) /\
       exists js, i = JArr js /\ Forall2 (json_pair json_num) js (vd_ic d)) /\
  (exists o, vec_unjson num_de j = Ok o /\ forall l : list (Num q), o = Some l <->
     exists js, j = JArr js /\ Forall2 json_num js l).
Proof.
  intros q j H1 H2. split; [now apply pd_reads|]. split; [now apply vd_reads|]. apply (vec_reads (@num_de q)). now apply num_reads.
Qed.
Definition demo_pd (k : Z) : list (list Z * json) :=
  let n z := JStr [48 + z] in
  [(k_c, JArr [n 1; n 2]); ([120], JOther); (k_b, JArr [JArr [n 3; n 4]; JArr [n 5; n 6]]); (k_a, JArr [n 7; n k])].
Lemma case_C74_exact : pd_unjson (q := bn_q) (JObj (demo_pd 8)) = Ok (Some (mkPD (num 7, num 8) ((num 3, num 4), (num 5, num 6)) (num 1, num 2))) /\
  pd_unjson (q := bn_q) (JObj ((k_a, JOther) :: demo_pd 8)) = Ok None /\ pd_unjson (q := bn_q) (JObj (demo_pd 10)) = Ok None /\
  vec_unjson (num_de (q := bn_ord)) (JArr [JStr (biguint_to_string (Zpos bn_ord))]) = Ok None.
Proof. repeat split; vm_compute; reflexivity. Qed.
