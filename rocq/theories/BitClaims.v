(** Claims about bit decomposition, comparison and the multiplexer
    (circuit/bitify.rs, circuit/mux.rs). *)

From Verif Require Export NumClaims BitifySpec.
Open Scope num_scope.

Lemma Forall_good_sound {p} U n (l : list (CNum p)) s : Forall (owned U) l -> Forall (good Sound s (mkst U n)) l.
Proof. intros H. eapply Forall_impl; [|exact H]. intros c Hc. now apply good_sound. Qed.
Lemma Forall_good_honest {p} U n (l : list (CNum p)) s :
  Forall (owned U) l -> Forall (valued s) l -> Forall (good Honest s (mkst U n)) l.
Proof.
  intros H. induction H as [|c l Hc H IH]; intros H2; constructor; inversion H2; subst; auto.
  now apply good_honest.
Qed.
Lemma Forall_good_setup {p} U n (l : list (CNum p)) s :
  Forall (owned U) l -> Forall blank l -> Forall (good Setup s (mkst U n)) l.
Proof.
  intros H. induction H as [|c l Hc H IH]; intros H2; constructor; inversion H2; subst; auto.
  now apply good_setup.
Qed.
Lemma Forall_valued_ext {p} U (l : list (CNum p)) s s' :
  Forall (owned U) l -> (forall i, In i U -> s' i = s i) -> Forall (valued s) l -> Forall (valued s') l.
Proof.
  intros H E. induction H as [|c l Hc H IH]; intros H2; constructor; inversion H2; subst; auto.
  eapply valued_ext; eauto.
Qed.
Lemma ebits_ext {p} U (l : list (CNum p)) s s' bs :
  Forall (owned U) l -> (forall i, In i U -> s' i = s i) -> ebits s l bs -> ebits s' l bs.
Proof.
  intros H E H2. induction H2 as [|c b l bs Hc H2 IH]; constructor; inversion H; subst.
  - rewrite (ceval_ext_owned U c s s'); auto.
  - apply IH; auto.
Qed.
Lemma Forall_good_valued {p} s S1 (l : list (CNum p)) : Forall (good Honest s S1) l -> Forall (valued s) l.
Proof. apply Forall_impl. intros c [_ H]. exact H. Qed.
Lemma Forall_good_blank {p} s S1 (l : list (CNum p)) : Forall (good Setup s S1) l -> Forall blank l.
Proof. apply Forall_impl. intros c [_ H]. exact H. Qed.
#[export] Hint Resolve Forall_good_sound Forall_good_honest Forall_good_setup Forall_good_valued Forall_good_blank : claims.

Section PrimeClaims.
Variable p : positive.
Hypothesis Hp : Prime p.
Set Default Proof Using "Hp".
Notation F := (Num p).
Add Field bc_field : (num_field Hp) (morphism (@num_morph p), constants [num_cst], power_tac (@num_power p) [num_pow_cst]).

(* C15 *)
Lemma claim_C15_into_bits_sound : forall (U : list Index) (x : CNum p) (n : nat), In I0 U -> owned U x -> (1 <= n)%nat ->
  sound_for U (c_into_bits_le x n) (fun s bits =>
    exists bs, length bs = n /\ ebits s bits bs /\ ceval s x = num (bval bs) /\
      ((2 ^ Z.of_nat n <= Zpos p)%Z -> bval bs = nval (ceval s x) /\ (nval (ceval s x) < 2 ^ Z.of_nat n)%Z /\
          forall bs', length bs' = n -> ebits s bits bs' -> bs' = bits_of n (nval (ceval s x)))).
Proof.
  intros U x n H0 Hx Hn. apply wp_sound_for; auto. intros s HS.
  eapply wp_mono; [apply (wp_into_bits Hp); auto with claims; discriminate|].
  intros S1 bits _ [_ [Hl [_ [_ [bs [Hb [H1 _]]]]]]]. destruct (H1 ltac:(discriminate)) as [H2 H3].
  exists bs. split; auto. split; auto. split; auto. intros Hp2. pose proof (bval_range bs) as R. rewrite Hb in R.
  assert (Ev : bval bs = nval (ceval s x)) by (rewrite H3, nval_num_small; lia).
  split; auto. split; [lia|]. intros bs' Hl' Hb'. rewrite <- Ev.
  assert (bs' = bs).
  { clear -Hp H2 Hb'. revert bs' Hb'. induction H2 as [|c b l bs E H IH]; intros bs' H'; inversion H'; subst; auto.
    f_equal; auto. rewrite E in H2. destruct b, y; auto; exfalso; cbn in H2; apply (n1_neq_n0 Hp); congruence. }
  subst. now rewrite <- Hb, bits_of_bval.
Qed.

Lemma claim_C15_into_bits_complete : forall (U : list Index) (x : CNum p) (n : nat), In I0 U -> owned U x ->
  (1 <= n <= num_bits p)%nat ->
  complete_for U (c_into_bits_le x n)
    (fun s => valued s x /\ (nval (ceval s x) < 2 ^ Z.of_nat n)%Z)
    (fun s bits => Forall (valued s) bits /\ ebits s bits (bits_of n (nval (ceval s x)))) /\
  (blank x -> (forall v, as_const x = Some v -> (nval v < 2 ^ Z.of_nat n)%Z) ->
   synth_for U (c_into_bits_le x n) (fun k m bits => Forall blank bits /\ length bits = n /\
     (as_const x = None -> k = (n - 1)%nat /\ m = n) /\ (as_const x <> None -> k = 0%nat /\ m = 0%nat))).
Proof.
  intros U x n H0 Hx Hn. pose proof (num_bits_limbs p) as HL. split.
  - apply wp_complete_for; auto.
    + intros s s' E [H1 H2]. split; [eapply valued_ext; eauto|]. now rewrite (ceval_ext_owned U x s s').
    + intros s HS [H1 H2]. eapply wp_mono; [apply (wp_into_bits Hp); auto with claims; try lia; try discriminate; try (intros _; split; [auto|lia])|].
      intros S1 bits _ [G [Hl [_ [_ [bs [Hb [E1 E2]]]]]]]. split; [eauto with claims|].
      destruct (E1 ltac:(discriminate)) as [E3 _]. rewrite <- (E2 eq_refl), <- Hb, bits_of_bval. auto.
  - intros Bx Hc. apply wp_synth_for; auto. intros s HS.
    eapply wp_mono; [apply (wp_into_bits Hp); auto with claims; try lia; try discriminate; try (intros _; split; [lia|auto])|].
    intros S1 bits _ [G [Hl [H1 [H2 _]]]] k Hk. split; [eauto with claims|]. split; auto. split.
    + intros E. destruct (H1 E) as [_ [_ [B1 B2]]]. cbn in *. lia.
    + intros E. destruct (as_const x) as [v|] eqn:Ev; [|congruence].
      destruct (H2 v eq_refl) as [_ ->]. cbn in *. lia.
Qed.

(* C16 *)
Lemma claim_C16_into_bits_strict : forall (U : list Index) (x : CNum p), In I0 U -> owned U x -> (4 <= num_bits p)%nat ->
  sound_for U (c_into_bits_le_strict x) (fun s bits => ebits s bits (bits_of (num_bits p) (nval (ceval s x)))) /\
  complete_for U (c_into_bits_le_strict x) (fun s => valued s x)
    (fun s bits => Forall (valued s) bits /\ ebits s bits (bits_of (num_bits p) (nval (ceval s x)))) /\
  (blank x -> synth_for U (c_into_bits_le_strict x) (fun k m bits => Forall blank bits /\ length bits = num_bits p /\
     (as_const x = None -> m = (num_bits p + (Nat.div2 (num_bits p) + (Nat.div2 (num_bits p) + num_bits p mod 2) + 1) + 1)%nat))).
Proof.
  intros U x H0 Hx H4. split; [|split].
  - apply wp_sound_for; auto. intros s HS.
    eapply wp_mono; [apply (wp_into_bits_strict Hp); auto with claims|].
    intros S1 bits _ [_ [_ [H _]]]. apply H; discriminate.
  - apply wp_complete_for; auto; [eauto using valued_ext|]. intros s HS Hv.
    eapply wp_mono; [apply (wp_into_bits_strict Hp); auto with claims|].
    intros S1 bits _ [G [_ [H _]]]. split; [eauto with claims|]. apply H; discriminate.
  - intros Bx. apply wp_synth_for; auto. intros s HS.
    eapply wp_mono; [apply (wp_into_bits_strict Hp); auto with claims|].
    intros S1 bits _ [G [Hl [_ [H _]]]] k Hk. split; [eauto with claims|]. split; auto.
    intros E. destruct (H E) as [_ [_ [B1 B2]]]. cbn [su sn] in *. unfold nsteps in *. lia.
Qed.

(* C17 *)
(** [n] is the number of bits; the field is large enough for the comparison
    to fit, which holds for all n <= num_bits when the field has >= 4 bits. *)
Lemma claim_C17_comp_constant : forall (U : list Index) (sig : list (CBool p)) (ct : Num p), In I0 U ->
  Forall (owned U) sig -> (3 <= Zpos p)%Z ->
  let n := length sig in let h := (Nat.div2 n + n mod 2)%nat in
  (2 ^ Z.of_nat (h + 1) <= Zpos p)%Z -> (nval ct < 2 ^ Z.of_nat (2 * h))%Z ->
  sound_for U (c_comp_constant sig ct) (fun s r => forall bs, ebits s sig bs ->
    ((nval ct < bval bs)%Z -> ceval s r = n1) /\ ((bval bs <= nval ct)%Z -> ceval s r = n0)) /\
  ((0 < n <= 64 * num_limbs p)%nat ->
   complete_for U (c_comp_constant sig ct)
    (fun s => Forall (valued s) sig /\ exists bs, ebits s sig bs)
    (fun s r => valued s r /\ forall bs, ebits s sig bs ->
      ((nval ct < bval bs)%Z -> ceval s r = n1) /\ ((bval bs <= nval ct)%Z -> ceval s r = n0))).
Proof.
  intros U sig ct H0 Hs H3 n h Hpw Hct.
  assert (Ho : Z.odd (Zpos p) = true) by (apply (prime_odd Hp); lia).
  assert (X : forall bs r, length sig = length bs -> r = nbool (cmp_result bs ct) ->
     ((nval ct < bval bs)%Z -> r = n1) /\ ((bval bs <= nval ct)%Z -> r = (n0 : F))).
  { intros bs r Hl ->. unfold cmp_result. rewrite <- Hl. fold n. unfold nsteps. fold h.
    rewrite Z.mod_small by (split; [apply nval_range|auto]).
    split; intros E; destruct (Z.ltb_spec (nval ct) (bval bs)); auto; lia. }
  split.
  - apply wp_sound_for; auto. intros s HS.
    eapply wp_mono; [apply (wp_comp_constant Hp); auto with claims; try discriminate|].
    + intros E. congruence.
    + intros S1 r _ [_ [H _]] bs Hb. apply X; [eapply ebits_length; eauto|]. apply H; auto. discriminate.
  - intros Hn. apply wp_complete_for; auto.
    + intros s s' E [H1 [bs H2]]. split; [eapply Forall_valued_ext; eauto|]. exists bs. eapply ebits_ext; eauto.
    + intros s HS [H1 H2].
      eapply wp_mono; [apply (wp_comp_constant Hp); auto with claims; try discriminate|].
      intros S1 r _ [[_ G] [H _]]. split; [exact G|]. intros bs Hb.
      apply X; [eapply ebits_length; eauto|]. apply H; auto. discriminate.
Qed.

(** What is computed for every constant: the comparison with its low bits. *)
Lemma claim_C18_comp_constant_actual : forall (U : list Index) (sig : list (CBool p)) (ct : Num p), In I0 U ->
  Forall (owned U) sig -> (3 <= Zpos p)%Z ->
  let n := length sig in let h := (Nat.div2 n + n mod 2)%nat in
  (2 ^ Z.of_nat (h + 1) <= Zpos p)%Z ->
  sound_for U (c_comp_constant sig ct) (fun s r => forall bs, ebits s sig bs ->
    ceval s r = if (nval ct mod 2 ^ Z.of_nat (2 * h) <? bval bs)%Z then n1 else n0).
Proof.
  intros U sig ct H0 Hs H3 n h Hpw.
  assert (Ho : Z.odd (Zpos p) = true) by (apply (prime_odd Hp); lia).
  apply wp_sound_for; auto. intros s HS.
  eapply wp_mono; [apply (wp_comp_constant Hp); auto with claims; try discriminate|].
  - intros E. congruence.
  - intros S1 r _ [_ [H _]] bs Hb. rewrite (H bs Hb ltac:(discriminate)). unfold cmp_result.
    rewrite <- (ebits_length _ _ _ Hb). reflexivity.
Qed.

(* C19 *)
Lemma claim_C19_from_bits : forall (bits : list (CBool p)),
  (bits <> [] -> exists r, c_from_bits_le bits = Ok r /\
     (forall s, s I0 = n1 -> Forall (fun c => canonical (clc c)) bits ->
        forall bs, ebits s bits bs -> ceval s r = num (bval bs))) /\
  (bits = [] -> c_from_bits_le bits = Panic).
Proof.
  intros bits. split; intros H.
  - destruct bits as [|b bits]; [congruence|]. exists (from_bits_loop bits n1 b). split; [reflexivity|].
    intros s H0 Hc bs Hb.
    set (U := I0 :: flat_map (fun c : CBool p => map fst (clc c)) (b :: bits)).
    destruct (from_bits_ok Hp Sound s (mkst U 0) (b :: bits)) as [r [E [_ [_ H2]]]].
    + split; auto. now left.
    + rewrite Forall_forall in *. intros c Hin. split; [split|exact I].
      * now apply Hc.
      * intros k v Hkv. right. apply in_flat_map. exists c. split; auto. apply in_map_iff. exists (k, v). auto.
    + discriminate.
    + cbn in E. inversion E; subst. auto.
  - subst. reflexivity.
Qed.
(** Recomposition inverts both decompositions. *)
Lemma claim_C19_from_into_bits : forall (U : list Index) (x : CNum p) (n : nat), In I0 U -> owned U x ->
  ((1 <= n)%nat -> sound_for U (bits <-- c_into_bits_le x n ;; plift (c_from_bits_le bits))
      (fun s r => ceval s r = ceval s x)) /\
  ((4 <= num_bits p)%nat -> sound_for U (bits <-- c_into_bits_le_strict x ;; plift (c_from_bits_le bits))
      (fun s r => ceval s r = ceval s x)).
Proof.
  intros U x n H0 Hx. split; intros Hn; apply wp_sound_for; auto; intros s HS; apply wp_bind.
  - eapply wp_mono; [apply (wp_into_bits Hp); auto with claims; discriminate|].
    intros S1 bits I1 [G [Hl [_ [_ [bs [Hb [H1 _]]]]]]]. destruct (H1 ltac:(discriminate)) as [H2 H3].
    destruct (from_bits_ok Hp Sound s S1 bits) as [r [E [_ [_ Er]]]]; auto.
    + eapply okS_incl; eauto.
    + intros ->. cbn in Hl. lia.
    + rewrite E. cbn [plift]. apply wp_ret. rewrite H3. auto.
  - eapply wp_mono; [apply (wp_into_bits_strict Hp); auto with claims; discriminate|].
    intros S1 bits I1 [G [Hl [H1 _]]]. specialize (H1 ltac:(discriminate)).
    destruct (from_bits_ok Hp Sound s S1 bits) as [r [E [_ [_ Er]]]]; auto.
    + eapply okS_incl; eauto.
    + intros ->. cbn in Hl. lia.
    + rewrite E. cbn [plift]. apply wp_ret. rewrite (Er _ H1), bval_bits_of, Z.mod_small; [apply num_nval|].
      pose proof (nval_range (ceval s x)). pose proof (num_bits_upper p). lia.
Qed.

(* C20 *)
Lemma claim_C20_mux3 : forall (U : list Index) (b0 b1 b2 : CBool p) (c : list (list (Num p))), In I0 U ->
  owned U b0 -> owned U b1 -> owned U b2 ->
  (forall (x y z : bool), sound_for U (c_mux3 [b0; b1; b2] c) (fun s r =>
     ceval s b0 = nbool x -> ceval s b1 = nbool y -> ceval s b2 = nbool z ->
     Forall2 (fun o col => ceval s o = nth (Nat.b2n x + 2 * Nat.b2n y + 4 * Nat.b2n z) col n0) r c)) /\
  (Forall (fun col => length col = 8%nat) c ->
   complete_for U (c_mux3 [b0; b1; b2] c) (fun s => valued s b0 /\ valued s b1 /\ valued s b2)
     (fun s r => Forall (valued s) r /\
        forall x y z : bool, ceval s b0 = nbool x -> ceval s b1 = nbool y -> ceval s b2 = nbool z ->
        Forall2 (fun o col => ceval s o = nth (Nat.b2n x + 2 * Nat.b2n y + 4 * Nat.b2n z) col n0) r c)) /\
  (~ Forall (fun col => length col = 8%nat) c -> c_mux3 [b0; b1; b2] c = PPanic) /\
  (forall sel, length sel <> 3%nat -> c_mux3 sel c = PPanic).
Proof.
  intros U b0 b1 b2 c H0 O0 O1 O2.
  assert (X : forall s r x y z, map (ceval s) r = map (mux_sel [x; y; z]) c ->
     Forall2 (fun o (col : list F) => ceval s o = nth (Nat.b2n x + 2 * Nat.b2n y + 4 * Nat.b2n z) col n0) r c).
  { intros s r x y z. revert r. induction c as [|col c' IH]; intros [|o r] E; try discriminate; constructor.
    - cbn in E. assert (E1 : ceval s o = mux_sel [x; y; z] col) by congruence. rewrite E1. unfold mux_sel.
      destruct x, y, z; reflexivity.
    - apply IH. cbn in E. congruence. }
  split; [|split; [|split]].
  - intros x y z. apply wp_sound_for; auto. intros s HS.
    eapply wp_mono; [apply (wp_mux3 Hp); auto with claims; congruence|].
    intros S1 r _ [_ [_ [_ H]]] E0 E1 E2. apply X. apply H; [|discriminate]. repeat constructor; auto.
  - intros Hc. apply wp_complete_for; auto.
    + intros s s' E [H1 [H2 H3]]. split; [|split]; eapply valued_ext; eauto.
    + intros s HS [H1 [H2 H3]].
      eapply wp_mono; [apply (wp_mux3 Hp); auto with claims|].
      intros S1 r _ [G [_ [_ H]]]. split; [eauto with claims|]. intros x y z E0 E1 E2.
      apply X. apply H; [|discriminate]. repeat constructor; auto.
  - intros Hc. unfold c_mux3. destruct (forallb _ c) eqn:E; [|reflexivity].
    exfalso. apply Hc. apply Forall_forall. rewrite forallb_forall in E. intros col Hin. apply Nat.eqb_eq. auto.
  - intros sel Hl. destruct sel as [|? [|? [|? [|? ?]]]]; try reflexivity. cbn in Hl. lia.
Qed.
End PrimeClaims.
Unset Default Proof Using.

(* C18 *)
(** Over the field with 13 elements the one-bit number 1 is reported greater
    than the constant 4. *)
Lemma claim_C18_comp_constant_large_refuted :
  exists (p : positive) (sig : list (CBool p)) (bs : list bool) (ct : Num p) tr r s,
    Prime p /\ exec [I0; Aux 0] (c_comp_constant sig ct) tr (Some r) /\ s I0 = n1 /\ sat s tr /\
    ebits s sig bs /\ (bval bs < nval ct)%Z /\ ceval s r = n1.
Proof.
  exists 13%positive, [cvar (Some n1) (Aux 0)], [true], (num 4).
  assert (D : demo [n1 : Num 13] (c_comp_constant [cvar (Some n1) (Aux 0)] (num 4 : Num 13)) (fun s r => ceval s r = n1)).
  { apply (demob_ok _ _ _ (fun s r => neqb (ceval s r) n1)).
    - intros s r H. now apply neqb_eq.
    - vm_compute. reflexivity. }
  destruct D as [tr [r [s [D1 [D2 [D3 [D4 [D5 D6]]]]]]]].
  exists tr, r, s. split; [exact p13|]. split; [exact D1|]. split; [exact D2|]. split; [exact D5|].
  split; [|split; [reflexivity|exact D6]].
  constructor; [|constructor]. rewrite ceval_var. apply (D3 0%nat). cbn. lia.
Qed.

(** Concrete cases over the field with 37 elements (6 bits). *)
Lemma p37 : Prime 37.
Proof. apply trial_prime. vm_compute. reflexivity. Qed.
Definition x37 : CNum 37 := cvar (Some (num 22)) (Aux 0).
Definition bvec37 : list (CBool 37) := [cvar (Some n1) (Aux 0); cvar (Some n0) (Aux 1); cvar (Some n1) (Aux 2)].
Definition nlist_eqb {p} (l l' : list (Num p)) : bool := Nat.eqb (length l) (length l') && forallb (fun '(a, b) => neqb a b) (combine l l').
Lemma nlist_eqb_eq {p} (l l' : list (Num p)) : nlist_eqb l l' = true -> l = l'.
Proof.
  unfold nlist_eqb. revert l'. induction l as [|a l IH]; intros [|b l']; cbn; try (intros; discriminate); auto.
  rewrite !Bool.andb_true_iff. intros [H1 [H2 H3]]. apply neqb_eq in H2. f_equal; auto. apply IH. now rewrite H1, H3.
Qed.
Ltac demo_list l := apply (demob_ok _ _ _ (fun s r => nlist_eqb (map (ceval s) r) l)); [intros s r; apply nlist_eqb_eq|vm_compute; reflexivity].
Lemma case_C15_into_bits_sound : (2 ^ Z.of_nat 5 <= Zpos 37)%Z /\
  demo [num 22] (c_into_bits_le x37 5) (fun s r => map (ceval s) r = [n0; n1; n1; n0; n1]).
Proof. split; [vm_compute; discriminate|]. demo_list [n0; n1; n1; n0; n1 : Num 37]. Qed.
Lemma case_C15_into_bits_complete : (1 <= 6 <= num_bits 37)%nat /\
  demo [num 22] (c_into_bits_le x37 6) (fun s r => map (ceval s) r = [n0; n1; n1; n0; n1; n0]).
Proof. split; [vm_compute; lia|]. demo_list [n0; n1; n1; n0; n1; n0 : Num 37]. Qed.
Lemma case_C16_into_bits_strict : (4 <= num_bits 37)%nat /\
  demo [num 22] (c_into_bits_le_strict x37) (fun s r => map (ceval s) r = [n0; n1; n1; n0; n1; n0]).
Proof. split; [vm_compute; lia|]. demo_list [n0; n1; n1; n0; n1; n0 : Num 37]. Qed.
Lemma case_C17_comp_constant :
  demo [n1; n0; n1] (r1 <-- c_comp_constant bvec37 (num 4) ;; r2 <-- c_comp_constant bvec37 (num 5) ;; Ret [r1; r2])
    (fun s r => map (ceval s) r = [n1; n0]).
Proof. demo_list [n1; n0 : Num 37]. Qed.
Lemma case_C18_comp_constant_actual :
  demo [n1; n0; n1] (r1 <-- c_comp_constant bvec37 (num 20) ;; Ret [r1]) (fun s r => map (ceval s) r = [n1]).
Proof. demo_list [n1 : Num 37]. Qed.
Lemma case_C19_from_bits :
  demo [n1; n0; n1] (r <-- plift (c_from_bits_le bvec37) ;; Ret [r]) (fun s r => map (ceval s) r = [num 5]).
Proof. demo_list [num 5 : Num 37]. Qed.
Lemma case_C19_from_into_bits :
  demo [num 22] (bits <-- c_into_bits_le_strict x37 ;; r <-- plift (c_from_bits_le bits) ;; Ret [r])
    (fun s r => map (ceval s) r = [num 22]).
Proof. demo_list [num 22 : Num 37]. Qed.
Lemma case_C20_mux3 :
  demo [n1; n0; n1] (c_mux3 bvec37 [map num [10; 11; 12; 13; 14; 15; 16; 17]%Z; map num [20; 21; 22; 23; 24; 25; 26; 27]%Z])
    (fun s r => map (ceval s) r = [num 15; num 25]).
Proof. demo_list [num 15; num 25 : Num 37]. Qed.
