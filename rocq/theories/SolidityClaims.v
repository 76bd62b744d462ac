(** Claims about the Solidity verifier text: C64. *)

From Verif Require Export Solidity CodecSpec.
From Coq Require Import Lia.
Open Scope Z_scope.
Local Notation length := List.length.

(** no '<' followed by '%', and no '<' at the end *)
Fixpoint clean (l : list Z) : bool :=
  match l with
  | [] => true
  | c :: t => (if Z.eqb c 60 then match t with [] => false | d :: _ => negb (Z.eqb d 37) end else true) && clean t
  end.
Lemma clean_no_lt l : forallb (fun c => negb (Z.eqb c 60)) l = true -> clean l = true.
Proof. induction l as [|c t IH]; cbn [forallb clean]; auto. intros H. apply andb_true_iff in H as [H1 H2]. destruct (Z.eqb c 60); [discriminate|]. now apply IH. Qed.
Lemma clean_app a b : clean a = true -> clean b = true -> clean (a ++ b) = true.
Proof.
  induction a as [|c t IH]; intros A B; [exact B|]. cbn [clean app] in *. apply andb_true_iff in A as [A1 A2]. rewrite (IH A2 B), andb_true_r.
  destruct (Z.eqb c 60); auto. destruct t; [discriminate|exact A1].
Qed.
(** A clean text holds no placeholder. *)
Lemma clean_spec s : clean s = true -> forall l r, s <> l ++ [60; 37] ++ r.
Proof.
  intros H l r ->. induction l as [|c t IH]; cbn [clean app] in H; [discriminate|]. apply andb_true_iff in H as [_ H]. auto.
Qed.

(** the two lists differ at a position both have *)
Fixpoint differ (a b : list Z) : bool :=
  match a, b with x :: s, y :: t => negb (Z.eqb x y) || differ s t | _, _ => false end.
Lemma differ_starts a b s : differ a b = true -> starts a (b ++ s) = false.
Proof.
  revert b. induction a as [|x a IH]; intros [|y b]; cbn [differ starts app]; try discriminate. intros H. apply orb_true_iff in H as [H|H].
  - destruct (Z.eqb x y); [discriminate|reflexivity]. - rewrite (IH _ H). apply andb_false_r.
Qed.
Lemma starts_self a s : starts a (a ++ s) = true.
Proof. induction a as [|x a IH]; cbn; auto. now rewrite Z.eqb_refl. Qed.

Section Repl.
Variable pat' to : list Z.
Notation pat := (60 :: 37 :: pat').
Lemma repl_clean l : clean l = true -> forall s f, str_replace (length l + f) pat to (l ++ s) = l ++ str_replace f pat to s.
Proof using.
  induction l as [|c t IH]; intros H s f; [reflexivity|]. cbn [clean] in H. apply andb_true_iff in H as [H1 H2]. cbn [length Nat.add app str_replace].
  assert (S0 : starts pat (c :: t ++ s) = false).
  { cbn [starts]. destruct (Z.eqb_spec c 60) as [->|N]; [|destruct (Z.eqb_spec 60 c); [congruence|reflexivity]].
    rewrite Z.eqb_refl. cbn [andb]. destruct t as [|d t]; [discriminate|]. cbn [app starts]. destruct (Z.eqb_spec d 37) as [->|N]; [discriminate|].
    destruct (Z.eqb_spec 37 d); [congruence|reflexivity]. }
  rewrite S0, IH by auto. reflexivity.
Qed.
Lemma repl_other h : differ pat h = true -> (match h with c :: t => clean t | [] => false end) = true ->
  forall s f, str_replace (length h + f) pat to (h ++ s) = h ++ str_replace f pat to s.
Proof using.
  intros D C s f. destruct h as [|c t]; [discriminate|]. pose proof (differ_starts _ _ s D) as S0. cbn [app] in S0.
  cbn [length Nat.add app]. cbn [str_replace]. rewrite S0, repl_clean by auto. reflexivity.
Qed.
Lemma repl_self s f : (length s <= f)%nat -> forall f', (length s <= f')%nat -> str_replace f pat to s = str_replace f' pat to s.
Proof using.
  revert s. induction f as [|f IH]; intros s H f' H'.
  - destruct s; [destruct f'; reflexivity|cbn in H; lia].
  - destruct s as [|c t]; [destruct f'; reflexivity|]. destruct f' as [|f']; [cbn in H'; lia|]. cbn [str_replace].
    destruct (starts pat (c :: t)).
    + f_equal. cbn [length] in H, H'. apply IH; rewrite skipn_length; cbn [length]; lia.
    + f_equal. cbn [length] in H, H'. apply IH; lia.
Qed.
Lemma repl_match s f : (length s <= f)%nat -> str_replace (S f) pat to (pat ++ s) = to ++ str_replace f pat to s.
Proof using.
  intros H. cbn [str_replace app]. replace (60 :: 37 :: pat' ++ s) with (pat ++ s) by reflexivity. rewrite starts_self, skipn_app, skipn_all.
  replace (length pat - length pat)%nat with O by lia. reflexivity.
Qed.
End Repl.

(** texts with holes *)
Inductive tok := Lit (l : list Z) | Hole (h : list Z).
Definition flat (ts : list tok) : list Z := flat_map (fun t => match t with Lit l => l | Hole h => h end) ts.
Definition eqbl (a b : list Z) : bool := if list_eq_dec Z.eq_dec a b then true else false.
Definition good_tok (t : tok) : bool :=
  match t with Lit l => clean l | Hole h => match h with a :: b :: r => Z.eqb a 60 && (Z.eqb b 37 && forallb (fun c => negb (Z.eqb c 60)) r) | _ => false end end.
Definition apart (pat : list Z) (t : tok) : bool := match t with Lit _ => true | Hole h => eqbl pat h || differ pat h end.
Definition fill (pat to : list Z) (t : tok) : tok := match t with Lit l => Lit l | Hole h => if eqbl pat h then Lit to else Hole h end.

Lemma eqbl_true a b : eqbl a b = true <-> a = b.
Proof. unfold eqbl. destruct (list_eq_dec Z.eq_dec a b); split; auto; discriminate. Qed.
Lemma flat_cons t ts : flat (t :: ts) = match t with Lit l => l | Hole h => h end ++ flat ts.
Proof. reflexivity. Qed.
Lemma repl_flat pat' to ts : let pat := 60 :: 37 :: pat' in
  forallb good_tok ts = true -> forallb (apart pat) ts = true -> forall f, (length (flat ts) <= f)%nat ->
  str_replace f pat to (flat ts) = flat (map (fill pat to) ts).
Proof.
  intros pat. induction ts as [|t ts IH]; intros G A f F; [destruct f; reflexivity|].
  cbn [forallb] in G, A. apply andb_true_iff in G as [G1 G2]. apply andb_true_iff in A as [A1 A2].
  rewrite flat_cons in F |- *. cbn [map]. rewrite flat_cons. destruct t as [l|h]; cbn [good_tok apart fill] in *.
  - rewrite app_length in F. replace f with (length l + (f - length l))%nat by lia. unfold pat. rewrite repl_clean by auto. f_equal. apply IH; auto; lia.
  - destruct (eqbl pat h) eqn:E.
    + apply eqbl_true in E. subst h. rewrite app_length in F. cbn [length] in F. destruct f as [|f]; [unfold pat in F; cbn in F; lia|].
      unfold pat. rewrite repl_match by (unfold pat in F; cbn in F; lia). f_equal. apply IH; auto. unfold pat in F; cbn in F; lia.
    + cbn [orb] in A1. rewrite app_length in F. replace f with (length h + (f - length h))%nat by lia. unfold pat. rewrite repl_other; auto.
      * f_equal. apply IH; auto; lia.
      * destruct h as [|c [|d r]]; try discriminate. apply andb_true_iff in G1 as [_ G1]. apply andb_true_iff in G1 as [G0 G1]. apply Z.eqb_eq in G0. subst d.
        apply clean_no_lt. cbn [forallb]. exact G1.
Qed.
Lemma good_fill pat to ts : clean to = true -> forallb good_tok ts = true -> forallb good_tok (map (fill pat to) ts) = true.
Proof.
  intros T. induction ts as [|t ts IH]; cbn [map forallb]; auto. intros G. apply andb_true_iff in G as [G1 G2]. rewrite (IH G2), andb_true_r.
  destruct t as [l|h]; cbn [fill]; auto. destruct (eqbl pat h); auto.
Qed.
Lemma apart_fill q pat to ts : forallb (apart q) ts = true -> forallb (apart q) (map (fill pat to) ts) = true.
Proof.
  induction ts as [|t ts IH]; cbn [map forallb]; auto. intros G. apply andb_true_iff in G as [G1 G2]. rewrite (IH G2), andb_true_r.
  destruct t as [l|h]; cbn [fill]; auto. destruct (eqbl pat h); auto.
Qed.

(** cut at the first occurrence *)
Fixpoint cut (pat s : list Z) : list Z * list Z :=
  match s with
  | [] => ([], [])
  | c :: t => if starts pat s then ([], skipn (length pat) s) else let '(a, b) := cut pat t in (c :: a, b)
  end.
Definition holes : list string := ["<%vk_ic_length%>"; "<%vk_alfa1%>"; "<%vk_beta2%>"; "<%vk_gamma2%>"; "<%vk_delta2%>"; "<%vk_ic_pts%>"; "<%vk_input_length%>"]%string.
Fixpoint toks_of (hs : list string) (s : list Z) : list tok :=
  match hs with [] => [Lit s] | h :: t => let '(a, b) := cut (codes h) s in Lit a :: Hole (codes h) :: toks_of t b end.
Definition toks : list tok := toks_of holes template.
Definition lit (k : nat) : list Z := match nth k toks (Lit []) with Lit l => l | Hole _ => [] end.
Lemma toks_check : eqbl (flat toks) template && forallb good_tok toks && forallb (fun h => forallb (apart (codes h)) toks) holes = true.
Proof. vm_compute. reflexivity. Qed.
Lemma toks_shape : toks = [Lit (lit 0); Hole (codes "<%vk_ic_length%>"); Lit (lit 2); Hole (codes "<%vk_alfa1%>"); Lit (lit 4);
  Hole (codes "<%vk_beta2%>"); Lit (lit 6); Hole (codes "<%vk_gamma2%>"); Lit (lit 8); Hole (codes "<%vk_delta2%>"); Lit (lit 10);
  Hole (codes "<%vk_ic_pts%>"); Lit (lit 12); Hole (codes "<%vk_input_length%>"); Lit (lit 14)].
Proof.
  unfold lit, toks. generalize template. intros t. unfold holes. cbn [toks_of].
  repeat (match goal with |- context [cut ?a ?b] => destruct (cut a b) end). reflexivity.
Qed.
Local Opaque template toks.

(** the printed coordinates *)
Definition dec := biguint_to_string.
Definition g1_text (x y : Z) : list Z := dec x ++ codes ", " ++ dec y.
Definition g2_text (a b c d : Z) : list Z := codes "[" ++ dec a ++ codes ", " ++ dec b ++ codes "], [" ++ dec c ++ codes ", " ++ dec d ++ codes "]".
Definition line (i : nat) (p : G1Data bn_q) : list Z :=
  (if Nat.eqb i 0 then [] else codes "        ") ++ codes "vk.IC[" ++ dec (Z.of_nat i) ++ codes "] = Pairing.G1Point(" ++
  g1_text (nval (fst p)) (nval (snd p)) ++ codes ");" ++ [10].

Lemma bn_full : full_bytes bn_q = true.
Proof. vm_compute. reflexivity. Qed.
Lemma str_g1 p : stringify_g1 p = Ok (g1_text (nval (fst p)) (nval (snd p))).
Proof. unfold stringify_g1. rewrite !num_to_string_ok, bn_full. reflexivity. Qed.
Lemma str_g2 p : stringify_g2 p = Ok (g2_text (nval (fst (fst p))) (nval (snd (fst p))) (nval (fst (snd p))) (nval (snd (snd p)))).
Proof. unfold stringify_g2. rewrite !num_to_string_ok, bn_full. reflexivity. Qed.
Lemma dec_clean z : 0 <= z -> clean (dec z) = true.
Proof.
  intros H. destruct (to_string_spec z H) as [c [t [E [D _]]]]. unfold dec. rewrite E. apply clean_no_lt. apply forallb_forall. intros x Hx.
  rewrite forallb_forall in D. specialize (D x Hx). unfold digit in D. destruct (Z.eqb_spec x 60); [subst; discriminate|reflexivity].
Qed.
Lemma nval_dec {q} (x : Num q) : clean (dec (nval x)) = true.
Proof. apply dec_clean. apply nval_range. Qed.
Ltac cl := repeat apply clean_app; try (apply nval_dec); try (apply dec_clean; lia); try reflexivity.
Lemma g1_clean p : clean (g1_text (nval (fst p)) (nval (snd (p : G1Data bn_q)))) = true.
Proof. unfold g1_text. cl. Qed.
Lemma g2_clean (p : G2Data bn_q) : clean (g2_text (nval (fst (fst p))) (nval (snd (fst p))) (nval (fst (snd p))) (nval (snd (snd p)))) = true.
Proof. unfold g2_text. cl. Qed.
Lemma line_clean i p : clean (line i p) = true.
Proof. unfold line. destruct (Nat.eqb i 0); repeat (first [apply g1_clean | apply dec_clean; lia | reflexivity | apply clean_app]). Qed.
Lemma lines_clean k l : clean (concat (map (fun ip => line (fst ip) (snd ip)) (combine (seq k (length l)) l))) = true.
Proof. revert k. induction l as [|p l IH]; intros k; cbn [length seq combine map concat]; auto. apply clean_app; [apply line_clean|apply IH]. Qed.

Lemma ic_text_spec l : forall k vi, (k = O <-> vi = []) ->
  ic_text (Z.of_nat k) vi l = Ok (vi ++ concat (map (fun ip => line (fst ip) (snd ip)) (combine (seq k (length l)) l))).
Proof.
  induction l as [|p l IH]; intros k vi HK; cbn [ic_text length seq combine map concat]; [now rewrite app_nil_r|].
  rewrite str_g1. cbn [rbind]. replace (Z.of_nat k + 1) with (Z.of_nat (S k)) by lia. rewrite IH.
  - assert (M : (match vi with [] => [] | _ :: _ => codes "        " end) = (if Nat.eqb k 0 then [] else codes "        ")).
    { destruct vi as [|z vi], (Nat.eqb_spec k 0) as [K|K]; auto.
      - exfalso. apply K. now apply HK. - exfalso. apply HK in K. discriminate. }
    rewrite M. cbn [fst snd]. unfold line. rewrite <- !app_assoc. reflexivity.
  - split; [discriminate|]. intros E. apply app_eq_nil in E as [-> E]. apply app_eq_nil in E as [_ E]. discriminate.
Qed.

Lemma codes_pat h : codes (String "<" (String "%" h)) = 60 :: 37 :: codes h.
Proof. reflexivity. Qed.
Lemma replace_flat h to ts : forallb good_tok ts = true -> forallb (apart (codes (String "<" (String "%" h)))) ts = true ->
  replace (String "<" (String "%" h)) to (flat ts) = flat (map (fill (codes (String "<" (String "%" h))) to) ts).
Proof. intros G A. unfold replace. rewrite codes_pat in *. now apply repl_flat. Qed.

(* C64 *)
Definition rendered (vk : VKData bn_q) (t0 t1 t2 t3 t4 t5 t6 t7 : list Z) : list Z :=
  t0 ++ dec (Z.of_nat (length (vd_ic vk))) ++ t1 ++ g1_text (nval (fst (vd_alpha vk))) (nval (snd (vd_alpha vk))) ++
  t2 ++ g2_text (nval (fst (fst (vd_beta vk)))) (nval (snd (fst (vd_beta vk)))) (nval (fst (snd (vd_beta vk)))) (nval (snd (snd (vd_beta vk)))) ++
  t3 ++ g2_text (nval (fst (fst (vd_gamma vk)))) (nval (snd (fst (vd_gamma vk)))) (nval (fst (snd (vd_gamma vk)))) (nval (snd (snd (vd_gamma vk)))) ++
  t4 ++ g2_text (nval (fst (fst (vd_delta vk)))) (nval (snd (fst (vd_delta vk)))) (nval (fst (snd (vd_delta vk)))) (nval (snd (snd (vd_delta vk)))) ++
  t5 ++ concat (map (fun ip => line (fst ip) (snd ip)) (combine (seq 0 (length (vd_ic vk))) (vd_ic vk))) ++
  t6 ++ dec (Z.of_nat (length (vd_ic vk)) - 1) ++ t7.

Ltac cln := match goal with
  | |- clean (g1_text _ _) = true => apply g1_clean
  | |- clean (g2_text _ _ _ _) = true => apply g2_clean
  | |- clean (dec _) = true => apply dec_clean; lia
  end.
Ltac gd := match goal with
  | |- forallb good_tok (map _ _) = true => apply good_fill; [cln|gd]
  | |- forallb (apart _) (map _ _) = true => apply apart_fill; gd
  | |- _ => assumption
  end.
Lemma generate_flat chk vk m : usize_sub chk (Z.of_nat (length (vd_ic vk))) 1 = Ok m -> 0 <= m ->
  exists ic, ic = concat (map (fun ip => line (fst ip) (snd ip)) (combine (seq 0 (length (vd_ic vk))) (vd_ic vk))) /\
  generate_sol_data chk vk = Ok (flat [Lit (lit 0); Lit (dec (Z.of_nat (length (vd_ic vk)))); Lit (lit 2);
    Lit (g1_text (nval (fst (vd_alpha vk))) (nval (snd (vd_alpha vk)))); Lit (lit 4);
    Lit (g2_text (nval (fst (fst (vd_beta vk)))) (nval (snd (fst (vd_beta vk)))) (nval (fst (snd (vd_beta vk)))) (nval (snd (snd (vd_beta vk))))); Lit (lit 6);
    Lit (g2_text (nval (fst (fst (vd_gamma vk)))) (nval (snd (fst (vd_gamma vk)))) (nval (fst (snd (vd_gamma vk)))) (nval (snd (snd (vd_gamma vk))))); Lit (lit 8);
    Lit (g2_text (nval (fst (fst (vd_delta vk)))) (nval (snd (fst (vd_delta vk)))) (nval (fst (snd (vd_delta vk)))) (nval (snd (snd (vd_delta vk))))); Lit (lit 10);
    Lit ic; Lit (lit 12); Lit (dec m); Lit (lit 14)]).
Proof.
  intros HM M0. eexists. split; [reflexivity|]. unfold generate_sol_data. rewrite str_g1, !str_g2. cbn [rbind]. rewrite HM. cbn [rbind].
  pose proof (ic_text_spec (vd_ic vk) 0 [] ltac:(tauto)) as IC. change (Z.of_nat 0) with 0 in IC. rewrite IC. cbn [rbind app].
  pose proof toks_check as TC. apply andb_true_iff in TC as [TC A]. apply andb_true_iff in TC as [TE G]. apply eqbl_true in TE.
  unfold holes in A. cbn [forallb] in A. repeat (apply andb_true_iff in A as [? A]). clear A.
  rewrite <- TE. unfold usize_to_string. fold dec.
  rewrite replace_flat by auto.
  rewrite replace_flat by gd.
  rewrite replace_flat by gd.
  rewrite replace_flat by gd.
  rewrite replace_flat by gd.
  rewrite replace_flat by gd.
  rewrite replace_flat by gd.
  rewrite toks_shape. cbn [map fill]. reflexivity.
Qed.
Lemma lits_clean k : clean (lit k) = true.
Proof.
  pose proof toks_check as TC. apply andb_true_iff in TC as [TC _]. apply andb_true_iff in TC as [_ G]. unfold lit.
  rewrite forallb_forall in G. destruct (nth_in_or_default k toks (Lit [])) as [I| ->]; [|reflexivity]. specialize (G _ I). destruct (nth k toks (Lit [])); [exact G|reflexivity].
Qed.
(** The template is eight pieces of text with seven placeholders between them, and the
    output is the pieces with the key's values in their places. *)
Lemma claim_C64_text : exists t0 t1 t2 t3 t4 t5 t6 t7 : list Z,
  template = t0 ++ codes "<%vk_ic_length%>" ++ t1 ++ codes "<%vk_alfa1%>" ++ t2 ++ codes "<%vk_beta2%>" ++ t3 ++ codes "<%vk_gamma2%>" ++
    t4 ++ codes "<%vk_delta2%>" ++ t5 ++ codes "<%vk_ic_pts%>" ++ t6 ++ codes "<%vk_input_length%>" ++ t7 /\
  (forall t l r, In t [t0; t1; t2; t3; t4; t5; t6; t7] -> t <> l ++ codes "<%" ++ r) /\
  (forall (chk : bool) (vk : VKData bn_q), vd_ic vk <> [] -> generate_sol_data chk vk = Ok (rendered vk t0 t1 t2 t3 t4 t5 t6 t7)).
Proof.
  exists (lit 0), (lit 2), (lit 4), (lit 6), (lit 8), (lit 10), (lit 12), (lit 14). split; [|split].
  - pose proof toks_check as TC. apply andb_true_iff in TC as [TC _]. apply andb_true_iff in TC as [TE _]. apply eqbl_true in TE.
    rewrite <- TE, toks_shape at 1. unfold flat. cbn [flat_map]. rewrite app_nil_r. reflexivity.
  - intros t l r I. change (codes "<%") with [60; 37]. apply clean_spec. cbn [In] in I.
    repeat (destruct I as [<-|I]; [apply lits_clean|]). contradiction.
  - intros chk vk N. destruct (generate_flat chk vk (Z.of_nat (length (vd_ic vk)) - 1)) as [ic [-> E]].
    + unfold usize_sub. destruct (vd_ic vk); [congruence|]. cbn [length]. rewrite (proj2 (Z.leb_le _ _)) by lia. reflexivity.
    + destruct (vd_ic vk); [congruence|]. cbn [length]. lia.
    + rewrite E. unfold flat, rendered. cbn [flat_map]. rewrite app_nil_r. reflexivity.
Qed.
(** No placeholder is left. *)
Lemma claim_C64_no_placeholder : forall (chk : bool) (vk : VKData bn_q) (out : list Z), generate_sol_data chk vk = Ok out ->
  forall l r, out <> l ++ codes "<%" ++ r.
Proof.
  intros chk vk out E. change (codes "<%") with [60; 37]. apply clean_spec.
  destruct (usize_sub chk (Z.of_nat (length (vd_ic vk))) 1) as [m|] eqn:M.
  - assert (M0 : 0 <= m).
    { unfold usize_sub in M. destruct (Z.leb_spec 1 (Z.of_nat (length (vd_ic vk)))); [assert (m = Z.of_nat (length (vd_ic vk)) - 1) as -> by congruence; lia|].
      destruct chk; [discriminate|]. assert (m = (Z.of_nat (length (vd_ic vk)) - 1) mod 2 ^ 64) as -> by congruence. apply Z.mod_pos_bound. lia. }
    destruct (generate_flat chk vk m M M0) as [ic [-> E2]]. rewrite E2 in E.
    match type of E with Ok ?x = _ => assert (O : out = x) by congruence end. rewrite O.
    unfold flat. cbn [flat_map]. 
    repeat (lazymatch goal with
    | |- clean (_ ++ _) = true => apply clean_app
    | |- clean (lit _) = true => apply lits_clean
    | |- clean (concat _) = true => apply lines_clean
    | |- clean [] = true => reflexivity
    | |- _ => cln
    end).
  - exfalso. unfold generate_sol_data in E. rewrite str_g1, !str_g2 in E. cbn [rbind] in E. rewrite M in E. discriminate.
Qed.
(** A key without ic points panics with overflow checks; without them the input count
    printed is 2^64 - 1. *)
Lemma claim_C64_empty : forall vk : VKData bn_q, vd_ic vk = [] -> generate_sol_data true vk = Panic /\
  exists out l r, generate_sol_data false vk = Ok out /\ out = l ++ codes "uint256[" ++ dec (2 ^ 64 - 1) ++ r.
Proof.
  intros vk H. split.
  - unfold generate_sol_data. rewrite str_g1, !str_g2. cbn [rbind]. rewrite H. reflexivity.
  - destruct (generate_flat false vk (2 ^ 64 - 1)) as [ic [-> E]]; [rewrite H; reflexivity|lia|].
    assert (L : exists a, lit 12 = a ++ codes "uint256[").
    { exists (firstn (length (lit 12) - 8) (lit 12)). apply eqbl_true. Local Transparent template. vm_compute. reflexivity. }
    destruct L as [a La]. rewrite E, La. eexists. 
    exists (flat [Lit (lit 0); Lit (dec (Z.of_nat (length (vd_ic vk)))); Lit (lit 2);
    Lit (g1_text (nval (fst (vd_alpha vk))) (nval (snd (vd_alpha vk)))); Lit (lit 4);
    Lit (g2_text (nval (fst (fst (vd_beta vk)))) (nval (snd (fst (vd_beta vk)))) (nval (fst (snd (vd_beta vk)))) (nval (snd (snd (vd_beta vk))))); Lit (lit 6);
    Lit (g2_text (nval (fst (fst (vd_gamma vk)))) (nval (snd (fst (vd_gamma vk)))) (nval (fst (snd (vd_gamma vk)))) (nval (snd (snd (vd_gamma vk))))); Lit (lit 8);
    Lit (g2_text (nval (fst (fst (vd_delta vk)))) (nval (snd (fst (vd_delta vk)))) (nval (fst (snd (vd_delta vk)))) (nval (snd (snd (vd_delta vk))))); Lit (lit 10);
    Lit (concat (map (fun ip => line (fst ip) (snd ip)) (combine (seq 0 (length (vd_ic vk))) (vd_ic vk)))); Lit a]), (lit 14).
    split; [reflexivity|]. unfold flat. cbn [flat_map]. rewrite !app_nil_r, <- !app_assoc. reflexivity.
Qed.
(** The numbers are printed in decimal, without leading zeros. *)
Lemma claim_C64_decimal : forall z, 0 <= z -> forallb (fun c => Z.leb 48 c && Z.leb c 57) (dec z) = true /\
  fold_left (fun v c => 10 * v + (c - 48)) (dec z) 0 = z /\ (forall t, dec z = 48 :: t -> t = []).
Proof.
  intros z H. destruct (to_string_spec z H) as [c [t [E [D [V N]]]]]. unfold dec. rewrite E. split; [exact D|]. split; [exact V|].
  intros t' Et. assert (c = 48 /\ t' = t) as [-> ->] by (split; congruence). destruct t as [|x t]; auto. exfalso. apply N; [discriminate|reflexivity].
Qed.
Lemma case_C64_text :
  let vk := mkVKD (num 1, num 2) ((num 3, num 4), (num 5, num 6)) ((num 7, num 8), (num 9, num 10)) ((num 11, num 12), (num 0, num 1)) [(num 2, num 3); (num 4, num 15)] : VKData bn_q in
  vd_ic vk <> [] /\ line 1 (num 4, num 15) = codes "        vk.IC[1] = Pairing.G1Point(4, 15);" ++ [10] /\
  g2_text 3 4 5 6 = codes "[3, 4], [5, 6]" /\ Z.of_nat (length template) = 5965.
Proof. split; [discriminate|]. vm_compute. auto. Qed.
