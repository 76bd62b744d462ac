(** Pocklington's criterion, to certify the moduli of the code by computation. *)

From Coq Require Import Znumtheory Zpow_facts.
From Verif Require Import Zp FieldTheory.
Open Scope Z_scope.

(** Modular exponentiation on integers (fast enough for 255-bit moduli). *)
Fixpoint powm (n : Z) (a : Z) (e : positive) : Z :=
  match e with
  | xH => a mod n
  | xO e' => let t := powm n a e' in (t * t) mod n
  | xI e' => let t := powm n a e' in (a * ((t * t) mod n)) mod n
  end.

Lemma powm_spec n a e : 0 < n -> powm n a e = a ^ Zpos e mod n.
Proof.
  intros Hn. induction e as [e IH|e IH|]; cbn [powm].
  - rewrite IH. rewrite Pos2Z.inj_xI.
    rewrite Z.pow_add_r, Z.pow_mul_r, Z.pow_1_r by lia.
    replace ((a ^ 2) ^ Z.pos e) with (a ^ Z.pos e * a ^ Z.pos e).
    2:{ rewrite <- Z.pow_mul_r by lia. rewrite <- Z.pow_add_r by lia. f_equal. lia. }
    rewrite <- Zmult_mod, Zmult_mod_idemp_r. f_equal. lia.
  - rewrite IH. rewrite Pos2Z.inj_xO, <- Zmult_mod. f_equal.
    rewrite <- Z.pow_add_r by lia. f_equal. lia.
  - now rewrite Z.pow_1_r.
Qed.

Lemma npow_num {p} (a : Z) (n : N) : @npow p (num a) n = num (a ^ Z.of_N n).
Proof.
  induction n as [|n IH] using N.peano_ind; [reflexivity|].
  rewrite npow_succ, IH, N2Z.inj_succ, Z.pow_succ_r, num_mul by lia. reflexivity.
Qed.

Lemma npow_gcd {p} (a : Num p) (m n : N) :
  npow a m = n1 -> npow a n = n1 -> npow a (N.gcd m n) = n1.
Proof.
  intros Hm Hn.
  assert (G : N.Bezout m n (N.gcd m n) \/ m = 0%N).
  { destruct (N.eq_dec m 0); [right; auto | left; apply N.gcd_bezout_pos; lia]. }
  destruct G as [[u [v E]]| ->]; [|rewrite N.gcd_0_l; exact Hn].
  assert (npow a (u * m) = n1) by (rewrite N.mul_comm, npow_mul, Hm; apply npow_one).
  assert (npow a (v * n) = n1) by (rewrite N.mul_comm, npow_mul, Hn; apply npow_one).
  rewrite E, npow_add, H0 in H.
  replace (npow a (N.gcd m n)) with (nmul (npow a (N.gcd m n)) n1).
  - exact H.
  - pose proof (@num_ring p) as R. rewrite (Rmul_comm R). apply (Rmul_1_l R).
Qed.

Lemma of_N_gcd a b : Z.of_N (N.gcd a b) = Z.gcd (Z.of_N a) (Z.of_N b).
Proof. destruct a, b; reflexivity. Qed.

(** One prime power of the factored part. *)
Definition pock_ok (n : Z) (q e a : Z) : bool :=
  (1 <? q) && (0 <? e) && ((n - 1) mod (q ^ e) =? 0) &&
  (powm n a (Z.to_pos (n - 1)) =? 1) &&
  (Z.gcd (powm n a (Z.to_pos ((n - 1) / q)) - 1) n =? 1).

Lemma pock_step n q e a r :
  3 <= n -> prime q -> pock_ok n q e a = true -> prime r -> (r | n) -> (q ^ e | r - 1).
Proof.
  intros Hn Hq H Hr Hrn. unfold pock_ok in H.
  repeat (apply andb_prop in H as [H ?]).
  rewrite Z.ltb_lt in *. rewrite Z.eqb_eq in *.
  rename H into Hq1, H0 into Hgcd, H1 into Hpow, H2 into Hdiv, H3 into He.
  assert (Hr1 : 1 < r) by (destruct Hr; lia).
  apply Z.mod_divide in Hdiv; [|apply Z.pow_nonzero; lia].
  assert (Dq : (q | n - 1)).
  { eapply Z.divide_trans; [|exact Hdiv]. replace e with (Z.succ (e - 1)) by lia.
    rewrite Z.pow_succ_r by lia. apply Z.divide_factor_l. }
  assert (Hdq : 0 < (n - 1) / q).
  { destruct Dq as [k Hk]. rewrite Hk, Z.div_mul by lia. nia. }
  rewrite powm_spec in Hpow, Hgcd by lia. rewrite !Z2Pos.id in * by lia.
  destruct r as [|rp|rp]; try lia.
  (* a is a unit mod r, killed by n-1 and r-1 *)
  assert (M : forall x, (x mod n) mod Zpos rp = x mod Zpos rp).
  { intros x. symmetry. apply Zmod_div_mod; lia || auto. }
  assert (A1 : npow (@num rp a) (Z.to_N (n - 1)) = n1).
  { rewrite npow_num, Z2N.id by lia. apply num_eq_mod. rewrite <- M, Hpow. reflexivity. }
  assert (A0 : @num rp a <> n0).
  { intros E. rewrite E in A1.
    replace (Z.to_N (n - 1)) with (N.succ (Z.to_N (n - 2))) in A1 by lia.
    rewrite npow_succ in A1.
    apply (one_neq_zero (p:=rp)); [lia|]. rewrite <- A1.
    apply num_eq; reflexivity. }
  pose proof (fermat Hr _ A0) as A2.
  pose proof (npow_gcd _ _ _ A1 A2) as A3.
  (* otherwise a^((n-1)/q) = 1 mod r *)
  set (g := Z.gcd (n - 1) (Zpos rp - 1)).
  assert (Eg : N.gcd (Z.to_N (n - 1)) (Z.to_N (Z.pos rp - 1)) = Z.to_N g).
  { apply N2Z.inj. rewrite of_N_gcd, !Z2N.id; try lia. apply Z.gcd_nonneg. }
  rewrite Eg in A3.
  assert (Hg : (g | n - 1)) by apply Z.gcd_divide_l.
  assert (Hgr : (g | Zpos rp - 1)) by apply Z.gcd_divide_r.
  destruct Hg as [k Hk].
  assert (g0 : 0 <= g) by apply Z.gcd_nonneg.
  assert (g1 : 0 < g) by (destruct (Z.eq_dec g 0) as [E0|]; [rewrite E0 in Hk|]; lia).
  assert (k1 : 0 < k) by nia.
  destruct (Zdivide_dec q k) as [[j Hj]|Hnk].
  - exfalso.
    assert (E1 : (n - 1) / q = g * j).
    { rewrite Hk, Hj. replace (j * q * g) with (g * j * q) by lia. rewrite Z.div_mul; lia. }
    assert (j1 : 0 < j) by nia.
    assert (A4 : npow (@num rp a) (Z.to_N ((n - 1) / q)) = n1).
    { rewrite E1, Z2N.inj_mul by lia. rewrite npow_mul, A3. apply npow_one. }
    rewrite npow_num, Z2N.id in A4 by lia. apply num_eq_mod in A4.
    assert (D : (Zpos rp | a ^ ((n - 1) / q) mod n - 1)).
    { apply Z.mod_divide; [lia|]. rewrite Zminus_mod, M, A4. 
      rewrite <- Zminus_mod. reflexivity. }
    assert (D2 : (Zpos rp | 1)).
    { rewrite <- Hgcd. apply Z.gcd_greatest; auto. }
    apply Z.divide_1_r_nonneg in D2; lia.
  - eapply Z.divide_trans; [|exact Hgr].
    apply Gauss with (b := k).
    + rewrite <- Hk. exact Hdiv.
    + apply rel_prime_sym, rel_prime_Zpower_r; [lia|].
      apply rel_prime_sym, prime_rel_prime; auto.
Qed.

Definition pock_list (n : Z) (l : list (Z * Z * Z)) : bool :=
  forallb (fun '(q, e, a) => pock_ok n q e a) l.

Fixpoint pock_prod (l : list (Z * Z * Z)) : Z :=
  match l with [] => 1 | (q, e, _) :: l' => q ^ e * pock_prod l' end.

Fixpoint distinct (l : list (Z * Z * Z)) : bool :=
  match l with
  | [] => true
  | (q, _, _) :: l' => forallb (fun '(q', _, _) => negb (q =? q')) l' && distinct l'
  end.

Lemma pock_prod_divide n l r :
  3 <= n -> Forall (fun '(q, _, _) => prime q) l -> pock_list n l = true -> distinct l = true ->
  prime r -> (r | n) -> (pock_prod l | r - 1).
Proof.
  intros Hn Hl Hok Hd Hr Hrn.
  induction l as [|[[q e] a] l IH]; cbn [pock_prod].
  - apply Z.divide_1_l.
  - inversion Hl as [|? ? Hq Hl']; subst. cbn in Hok, Hd.
    apply andb_prop in Hok as [Hok1 Hok2]. apply andb_prop in Hd as [Hd1 Hd2].
    specialize (IH Hl' Hok2 Hd2).
    pose proof (pock_step _ _ _ _ _ Hn Hq Hok1 Hr Hrn) as Hs.
    assert (Rp : rel_prime (q ^ e) (pock_prod l)).
    { clear - Hd1 Hl' Hq Hok1 Hok2. 
      assert (He : 0 < e).
      { unfold pock_ok in Hok1. repeat (apply andb_prop in Hok1 as [Hok1 ?]).
        apply Z.ltb_lt; auto. }
      induction l as [|[[q' e'] a'] l IH]; cbn [pock_prod].
      - apply rel_prime_sym, rel_prime_1.
      - cbn in Hd1, Hok2. apply andb_prop in Hd1 as [Hd1 Hd2]. 
        apply andb_prop in Hok2 as [Hok2 Hok3].
        inversion Hl' as [|? ? Hq' Hl'']; subst.
        apply rel_prime_mult; [|auto].
        assert (He' : 0 < e').
        { unfold pock_ok in Hok2. repeat (apply andb_prop in Hok2 as [Hok2 ?]).
          apply Z.ltb_lt; auto. }
        apply negb_true_iff, Z.eqb_neq in Hd1.
        apply rel_prime_Zpower; try lia.
        apply prime_rel_prime; auto. intros D.
        apply prime_divisors in D; auto. destruct Hq, Hq'. lia. }
    destruct Hs as [s Hs]. destruct IH as [t Ht].
    assert (D : (q ^ e | t)).
    { apply Gauss with (b := pock_prod l); auto. exists s. rewrite Z.mul_comm, <- Ht. exact Hs. }
    destruct D as [w Hw]. exists w. rewrite Ht, Hw. ring.
Qed.

Lemma prime_divisor n : 2 <= n -> exists r, prime r /\ (r | n).
Proof.
  intros Hn. assert (H0 : 0 <= n) by lia. revert Hn.
  apply (Z_lt_induction (fun n => 2 <= n -> exists r, prime r /\ (r | n))); [|exact H0].
  clear n H0. intros n IH Hn.
  destruct (prime_dec n) as [Hp|Hp].
  - exists n. split; auto. apply Z.divide_refl.
  - apply not_prime_divide in Hp as [d [Hd1 Hd2]]; [|lia].
    destruct (IH d) as [r [Hr1 Hr2]]; [lia|lia|].
    exists r. split; auto. eapply Z.divide_trans; eauto.
Qed.

Theorem pocklington n l :
  Forall (fun '(q, _, _) => prime q) l ->
  (3 <=? n) && pock_list n l && distinct l && (0 <? pock_prod l) && (n <? pock_prod l * pock_prod l) = true ->
  prime n.
Proof.
  intros Hl H. repeat (apply andb_prop in H as [H ?]).
  rename H1 into Hpos, H2 into H1, H3 into H2.
  apply Z.leb_le in H. apply Z.ltb_lt in H0, Hpos.
  destruct (prime_dec n) as [Hp|Hp]; auto. exfalso.
  apply not_prime_divide in Hp as [d [Hd1 Hd2]]; [|lia].
  destruct Hd2 as [c Hc].
  assert (1 < c) by nia.
  destruct (prime_divisor d) as [r1 [R1 D1]]; [lia|].
  destruct (prime_divisor c) as [r2 [R2 D2]]; [lia|].
  assert (E1 : (r1 | n)) by (eapply Z.divide_trans; [exact D1|]; exists c; lia).
  assert (E2 : (r2 | n)) by (eapply Z.divide_trans; [exact D2|]; exists d; lia).
  pose proof (pock_prod_divide n l r1 H Hl H2 H1 R1 E1) as P1.
  pose proof (pock_prod_divide n l r2 H Hl H2 H1 R2 E2) as P2.
  assert (1 < r1) by (destruct R1; lia). assert (1 < r2) by (destruct R2; lia).
  apply Z.divide_pos_le in P1; [|lia]. apply Z.divide_pos_le in P2; [|lia].
  apply Z.divide_pos_le in D1; [|lia]. apply Z.divide_pos_le in D2; [|lia].
  assert (pock_prod l * pock_prod l <= d * c) by (apply Z.mul_le_mono_nonneg; lia). lia.
Qed.

(** Trial division for the small base primes. *)
Fixpoint no_div (n : Z) (d : Z) (fuel : nat) : bool :=
  match fuel with
  | O => n <? d * d
  | S f => if n <? d * d then true else negb (n mod d =? 0) && no_div n (d + 1) f
  end.

Lemma no_div_spec n fuel d :
  1 < d -> no_div n d fuel = true -> forall k, d <= k -> k * k <= n -> ~ (k | n).
Proof.
  revert d. induction fuel as [|f IH]; intros d Hd H k Hk Hkn; cbn in H.
  - apply Z.ltb_lt in H. nia.
  - destruct (n <? d * d) eqn:E; [apply Z.ltb_lt in E; nia|].
    apply andb_prop in H as [H1 H2]. 
    destruct (Z.eq_dec k d) as [->|Hne].
    + intros D. apply Z.mod_divide in D; [|lia]. rewrite D in H1. discriminate.
    + apply IH with (d := d + 1); auto; lia.
Qed.

Lemma trial_prime n : (2 <=? n) && no_div n 2 1100 = true -> prime n.
Proof.
  intros H. apply andb_prop in H as [H1 H2]. apply Z.leb_le in H1.
  destruct (prime_dec n) as [Hp|Hp]; auto. exfalso.
  apply not_prime_divide in Hp as [d [Hd1 [c Hc]]]; [|lia].
  destruct (Z_le_dec (d * d) n) as [L|L].
  - eapply (no_div_spec n 1100 2); [lia|exact H2| |exact L|]; [lia|exists c; auto].
  - eapply (no_div_spec n 1100 2 ltac:(lia) H2 c); [nia|nia|exists d; lia].
Qed.

(** Modular exponentiation with Montgomery reduction (cheaper than division).
    [redc m k t] is congruent to t / 2^k modulo 2m+1. *)
Fixpoint redc (m : positive) (k : nat) (t : N) : N :=
  match k with
  | O => t
  | S k' =>
      redc m k' (match t with
                 | N0 => N0
                 | Npos (xO t') => Npos t'
                 | Npos (xI t') => Npos (Pos.add_carry t' m)
                 | Npos xH => Npos (Pos.succ m)
                 end)
  end.
Lemma redc_spec m k t : (Z.of_N (redc m k t) * 2 ^ Z.of_nat k) mod Zpos (xI m) = Z.of_N t mod Zpos (xI m).
Proof.
  revert t. induction k as [|k IH]; intros t; cbn [redc].
  - now rewrite Z.mul_1_r.
  - rewrite Nat2Z.inj_succ, Z.pow_succ_r, (Z.mul_comm 2), Z.mul_assoc by lia.
    rewrite <- Zmult_mod_idemp_l, IH, Zmult_mod_idemp_l.
    destruct t as [|[t'|t'|]].
    + reflexivity.
    + rewrite Pos.add_carry_spec. replace (Z.of_N (Npos (Pos.succ (t' + m))) * 2) with (Z.of_N (Npos (xI t')) + 1 * Zpos (xI m)).
      * now rewrite Z_mod_plus_full.
      * cbn [Z.of_N]. lia.
    + f_equal. cbn [Z.of_N]. lia.
    + replace (Z.of_N (Npos (Pos.succ m)) * 2) with (1 + 1 * Zpos (xI m)) by (cbn [Z.of_N]; lia).
      now rewrite Z_mod_plus_full.
Qed.
Fixpoint powr (m : positive) (k : nat) (small : bool) (a aR : N) (e : positive) : N :=
  match e with
  | xH => aR
  | xO e' => let t := powr m k small a aR e' in redc m k (t * t)
  | xI e' => let t := powr m k small a aR e' in
      let u := redc m k (t * t) in if small then (a * u)%N else redc m k (aR * u)
  end.
Definition powmM (n a : Z) (e : positive) : Z :=
  match n, a with
  | Zpos (xI m), Zpos _ =>
      let k := (Pos.size_nat m + 8)%nat in
      let a' := Z.to_N a in
      let aR := Z.to_N ((a * 2 ^ Z.of_nat k) mod n) in
      Z.of_N (redc m k (powr m k (a <? 6) a' aR e)) mod n
  | _, _ => powm n a e
  end.
Lemma two_inv m : exists r, (2 * r) mod Zpos (xI m) = 1 mod Zpos (xI m).
Proof.
  exists (Zpos m + 1). replace (2 * (Z.pos m + 1)) with (1 + 1 * Zpos (xI m)) by lia. apply Z_mod_plus_full.
Qed.
Lemma redc_cancel m k x y :
  (x * 2 ^ Z.of_nat k) mod Zpos (xI m) = (y * 2 ^ Z.of_nat k) mod Zpos (xI m) -> x mod Zpos (xI m) = y mod Zpos (xI m).
Proof.
  revert x y. induction k as [|k IH]; intros x y H.
  - now rewrite !Z.mul_1_r in H.
  - rewrite Nat2Z.inj_succ, Z.pow_succ_r, !Z.mul_assoc in H by lia. apply IH in H.
    destruct (two_inv m) as [r Hr].
    assert (E : forall z, (z * 2 * r) mod Zpos (xI m) = z mod Zpos (xI m)).
    { intros z. rewrite <- Z.mul_assoc, <- Zmult_mod_idemp_r, Hr, Zmult_mod_idemp_r. f_equal. lia. }
    rewrite <- (E x), <- (E y), <- Zmult_mod_idemp_l, H, Zmult_mod_idemp_l. reflexivity.
Qed.
Lemma powr_spec m k small a aR e :
  Z.of_N aR mod Zpos (xI m) = (Z.of_N a * 2 ^ Z.of_nat k) mod Zpos (xI m) ->
  Z.of_N (powr m k small a aR e) mod Zpos (xI m) = (Z.of_N a ^ Zpos e * 2 ^ Z.of_nat k) mod Zpos (xI m).
Proof.
  intros Ha. set (n := Zpos (xI m)) in *. set (R := 2 ^ Z.of_nat k) in *.
  assert (S : forall t, forall x, Z.of_N t mod n = (x * R) mod n -> Z.of_N (redc m k (t * t)) mod n = (x * x * R) mod n).
  { intros t x Ht. apply (redc_cancel m k). fold n R. unfold R at 1. rewrite (redc_spec m k). fold n.
    rewrite N2Z.inj_mul, Zmult_mod, Ht, <- Zmult_mod. f_equal. ring. }
  assert (P : forall t u x y, Z.of_N t mod n = (x * R) mod n -> Z.of_N u mod n = (y * R) mod n ->
      Z.of_N (redc m k (t * u)) mod n = (x * y * R) mod n).
  { intros t u x y Ht Hu. apply (redc_cancel m k). fold n R. unfold R at 1. rewrite (redc_spec m k). fold n.
    rewrite N2Z.inj_mul, Zmult_mod, Ht, Hu, <- Zmult_mod. f_equal. ring. }
  induction e as [e IH|e IH|]; cbn [powr].
  - cbv zeta. replace (Z.of_N a ^ Z.pos e~1) with (Z.of_N a * (Z.of_N a ^ Zpos e * Z.of_N a ^ Zpos e)).
    2:{ rewrite Pos2Z.inj_xI, Z.pow_add_r, Z.pow_1_r by lia. replace (2 * Z.pos e) with (Zpos e + Zpos e) by lia.
        rewrite Z.pow_add_r by lia. ring. }
    destruct small.
    + rewrite N2Z.inj_mul, <- Zmult_mod_idemp_r, (S _ _ IH), Zmult_mod_idemp_r. f_equal. ring.
    + apply P; auto.
  - cbv zeta. replace (Z.of_N a ^ Z.pos e~0) with (Z.of_N a ^ Zpos e * Z.of_N a ^ Zpos e).
    2:{ rewrite Pos2Z.inj_xO. replace (2 * Z.pos e) with (Zpos e + Zpos e) by lia. rewrite Z.pow_add_r by lia. ring. }
    auto.
  - rewrite Z.pow_1_r. exact Ha.
Qed.
Lemma powmM_powm n a e : 0 < n -> powmM n a e = powm n a e.
Proof.
  intros Hn. unfold powmM. destruct n as [|[m|m|]|]; try reflexivity. destruct a as [|a|a]; try reflexivity.
  cbv zeta. rewrite powm_spec by lia. set (k := (Pos.size_nat m + 8)%nat).
  apply (redc_cancel m k). rewrite redc_spec, powr_spec.
  - rewrite Z2N.id by lia. reflexivity.
  - rewrite !Z2N.id by (try apply Z.mod_pos_bound; lia). apply Zmod_mod.
Qed.

(** The same with one base for all the factors, sharing its powers. *)
Definition pockS_ok (n Q b : Z) (q e : Z) : bool :=
  let x := powmM n b (Z.to_pos (Q / q)) in
  (1 <? q) && (0 <? e) && ((n - 1) mod (q ^ e) =? 0) && (Q mod q =? 0) &&
  (powmM n x (Z.to_pos q) =? 1) && (Z.gcd (x - 1) n =? 1).
Definition pockS (n a : Z) (l : list (Z * Z)) : bool :=
  let Q := fold_right (fun '(q, _) r => q * r) 1 l in
  let b := powmM n a (Z.to_pos ((n - 1) / Q)) in
  (0 <? Q) && ((n - 1) mod Q =? 0) && forallb (fun '(q, e) => pockS_ok n Q b q e) l.

Lemma pockS_list n a l : 3 <= n -> pockS n a l = true ->
  pock_list n (map (fun '(q, e) => (q, e, a)) l) = true.
Proof.
  intros Hn. unfold pockS. rewrite powmM_powm by lia. set (Q := fold_right _ 1 l). set (b := powm n a _).
  intros H. apply andb_prop in H as [H H3]. apply andb_prop in H as [H1 H2].
  apply Z.ltb_lt in H1. apply Z.eqb_eq in H2. unfold pock_list.
  rewrite forallb_forall in *. intros [[q e] a'] Hin. apply in_map_iff in Hin as [[q0 e0] [E Hin]].
  inversion E; subst q0 e0 a'. specialize (H3 _ Hin). cbn beta iota in H3. unfold pockS_ok in H3.
  cbv zeta in H3. rewrite !powmM_powm in H3 by lia. repeat (apply andb_prop in H3 as [H3 ?]).
  rename H3 into Q1, H into Qg, H0 into Qp, H4 into Qd, H5 into Qe, H6 into Qpos.
  unfold pock_ok. rewrite Q1, Qpos, Qe. cbn [andb].
  apply Z.ltb_lt in Q1. apply Z.eqb_eq in Qg, Qp, Qd.
  apply Z.mod_divide in H2 as [c Hc]; [|lia]. apply Z.mod_divide in Qd as [d Hd]; [|lia].
  assert (0 < d) by nia. assert (0 < c) by nia.
  assert (Ed : Q / q = d) by (rewrite Hd, Z.div_mul; lia).
  assert (Ec : (n - 1) / Q = c) by (rewrite Hc, Z.div_mul; lia).
  assert (Eq : (n - 1) / q = c * d) by (rewrite Hc, Hd, Z.mul_assoc, Z.div_mul; [reflexivity|lia]).
  assert (Ex : powm n a (Z.to_pos ((n - 1) / q)) = powm n b (Z.to_pos (Q / q))).
  { unfold b. rewrite Eq, Ed, Ec, !powm_spec by lia. rewrite !Z2Pos.id by nia.
    rewrite <- Zpower_mod by lia. now rewrite <- Z.pow_mul_r by lia. }
  rewrite Ex. apply andb_true_intro. split; [|now apply Z.eqb_eq].
  apply Z.eqb_eq. etransitivity; [|exact Qp]. rewrite <- Ex. rewrite Eq, !powm_spec by lia.
  assert (0 < c * d) by (apply Z.mul_pos_pos; lia). rewrite !Z2Pos.id by lia.
  rewrite <- Zpower_mod by lia. rewrite <- Z.pow_mul_r by lia. do 2 f_equal. rewrite Hc, Hd. ring.
Qed.

Theorem pocklington_shared n a l :
  Forall (fun '(q, _) => prime q) l ->
  (let m := map (fun '(q, e) => (q, e, a)) l in
   (3 <=? n) && pockS n a l && distinct m && (0 <? pock_prod m) && (n <? pock_prod m * pock_prod m)) = true ->
  prime n.
Proof.
  intros Hl H. cbv zeta in H. apply (pocklington n (map (fun '(q, e) => (q, e, a)) l)).
  - apply Forall_map. eapply Forall_impl; [|exact Hl]. intros [q e] Hq. exact Hq.
  - repeat (apply andb_prop in H as [H ?]). rewrite H, H0, H1, H2. rewrite pockS_list; auto.
    now apply Z.leb_le.
Qed.
