(** A JubJub parameter set small enough to enumerate (used by the examples):
    y^2 - x^2 = 1 + 2 x^2 y^2 over the field of 37 elements, with 40 points. *)

From Verif Require Export JubJub.
From Verif Require Import Primality.
Open Scope num_scope.

(** A square root by search: [sqrt_ok] can be met in every field. *)
Definition sqrt_search {p} (a : Num p) : option (Num p) := find (fun b => neqb (b * b) a) all_nums.
Lemma sqrt_search_ok p : sqrt_ok (@sqrt_search p).
Proof.
  intros a. unfold sqrt_search. destruct (find _ all_nums) as [b|] eqn:E.
  - apply find_some in E. now apply neqb_eq.
  - intros [b Hb]. pose proof (find_none _ _ E b (in_all_nums b)) as X. cbn in X. apply neqb_neq in X. auto.
Qed.

Definition toy_d : Num 37 := num 2.
Definition toy : JubJub 37 5 := mkJ (mkE (num 8) (num 10)) toy_d (num 24) (num 11) (num 2).

Lemma prime_37 : prime 37.
Proof. apply trial_prime. vm_compute. reflexivity. Qed.
Lemma prime_5' : prime 5.
Proof. apply trial_prime. vm_compute. reflexivity. Qed.

Lemma not_square_search {p} (a : Num p) : forallb (fun b => negb (neqb (b * b) a)) all_nums = true -> ~ is_square a.
Proof.
  intros H [b Hb]. rewrite forallb_forall in H. specialize (H b (in_all_nums b)). apply Bool.negb_true_iff in H.
  apply neqb_neq in H. auto.
Qed.
Lemma on_curve_search {p} (d : Num p) (f : EPoint p -> bool) :
  forallb (fun x => forallb (fun y => if e_is_in_curve d (mkE x y) then f (mkE x y) else true) all_nums) all_nums = true ->
  forall P, on_curve d P -> f P = true.
Proof.
  intros H [x y] HP. rewrite forallb_forall in H. specialize (H x (in_all_nums x)). rewrite forallb_forall in H.
  specialize (H y (in_all_nums y)). apply e_is_in_curve_iff in HP. now rewrite HP in H.
Qed.

Lemma toy_ok : jubjub_ok toy.
Proof.
  assert (M1 : is_square (- (1) : Num 37)) by (exists (num 6); apply neqb_eq; vm_compute; reflexivity).
  assert (Hd : ~ is_square toy_d) by (apply not_square_search; vm_compute; reflexivity).
  split; cbn [toy jd ja jb ju jg].
  - exact prime_37.
  - exact prime_5'.
  - exists 2%Z. reflexivity.
  - exact M1.
  - exact Hd.
  - split; apply neqb_eq; vm_compute; reflexivity.
  - apply not_square_search; vm_compute; reflexivity.
  - apply e_is_in_curve_iff. vm_compute. reflexivity.
  - intros E. apply e_eqb_eq in E. vm_compute in E. discriminate.
  - apply e_eqb_eq. vm_compute. reflexivity.
  - intros P HP. apply e_eqb_eq. revert P HP. apply on_curve_search. vm_compute. reflexivity.
  - intros P HP E. assert (X : existsb (fun k => e_eqb P (emul toy_d k (jg toy))) [0; 1; 2; 3; 4]%Z = true).
    { assert (Y : implb (e_eqb (emul toy_d 5 P) e_zero) (existsb (fun k => e_eqb P (emul toy_d k (jg toy))) [0; 1; 2; 3; 4]%Z) = true).
      { revert P HP E. intros P HP _. revert P HP. apply on_curve_search. vm_compute. reflexivity. }
      rewrite (proj2 (e_eqb_eq _ _) E) in Y. exact Y. }
    apply existsb_exists in X. destruct X as [k [Hk Ek]]. exists k. apply e_eqb_eq in Ek. split; auto.
    cbn in Hk. lia.
  - exists (filter (e_is_in_curve toy_d) (map (fun xy => mkE (fst xy) (snd xy)) (list_prod all_nums all_nums))).
    split; [|split].
    + apply NoDup_filter, nodup_map_in; [apply nodup_prod; apply nodup_all_nums|]. intros [a b] [a' b'] _ _ E. cbn in E. congruence.
    + intros P. rewrite filter_In, e_is_in_curve_iff. split; [tauto|]. intros HP. split; auto.
      apply in_map_iff. exists (ex P, ey P). split; [now destruct P|]. apply in_prod; apply in_all_nums.
    + vm_compute. reflexivity.
Qed.

(** A second one, with a larger subgroup: y^2 - x^2 = 1 + 26 x^2 y^2 over the
    field of 73 elements, with 88 points. *)
Definition toy2_d : Num 73 := num 26.
Definition toy2 : JubJub 73 11 := mkJ (mkE (num 1) (num 56)) toy2_d (num 36) (num 35) (num 5).
Lemma prime_73 : prime 73.
Proof. apply trial_prime. vm_compute. reflexivity. Qed.
Lemma prime_11' : prime 11.
Proof. apply trial_prime. vm_compute. reflexivity. Qed.
Lemma toy2_ok : jubjub_ok toy2.
Proof.
  assert (M1 : is_square (- (1) : Num 73)) by (exists (num 27); apply neqb_eq; vm_compute; reflexivity).
  assert (Hd : ~ is_square toy2_d) by (apply not_square_search; vm_compute; reflexivity).
  split; cbn [toy2 jd ja jb ju jg].
  - exact prime_73.
  - exact prime_11'.
  - exists 5%Z. reflexivity.
  - exact M1.
  - exact Hd.
  - split; apply neqb_eq; vm_compute; reflexivity.
  - apply not_square_search; vm_compute; reflexivity.
  - apply e_is_in_curve_iff. vm_compute. reflexivity.
  - intros E. apply e_eqb_eq in E. vm_compute in E. discriminate.
  - apply e_eqb_eq. vm_compute. reflexivity.
  - intros P HP. apply e_eqb_eq. revert P HP. apply on_curve_search. vm_compute. reflexivity.
  - intros P HP E. assert (X : existsb (fun k => e_eqb P (emul toy2_d k (jg toy2))) (map Z.of_nat (seq 0 11)) = true).
    { assert (Y : implb (e_eqb (emul toy2_d 11 P) e_zero) (existsb (fun k => e_eqb P (emul toy2_d k (jg toy2))) (map Z.of_nat (seq 0 11))) = true).
      { revert P HP E. intros P HP _. revert P HP. apply on_curve_search. vm_compute. reflexivity. }
      rewrite (proj2 (e_eqb_eq _ _) E) in Y. exact Y. }
    apply existsb_exists in X. destruct X as [k [Hk Ek]]. exists k. apply e_eqb_eq in Ek. split; auto.
    apply in_map_iff in Hk. destruct Hk as [i [<- Hi]]. apply in_seq in Hi. lia.
  - exists (filter (e_is_in_curve toy2_d) (map (fun xy => mkE (fst xy) (snd xy)) (list_prod all_nums all_nums))).
    split; [|split].
    + apply NoDup_filter, nodup_map_in; [apply nodup_prod; apply nodup_all_nums|]. intros [a b] [a' b'] _ _ E. cbn in E. congruence.
    + intros P. rewrite filter_In, e_is_in_curve_iff. split; [tauto|]. intros HP. split; auto.
      apply in_map_iff. exists (ex P, ey P). split; [now destruct P|]. apply in_prod; apply in_all_nums.
    + vm_compute. reflexivity.
Qed.
