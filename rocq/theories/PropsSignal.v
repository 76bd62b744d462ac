(** Generated from SignalClaims.v by tools/genprops.py. *)
From Verif Require Import SignalClaims.
Open Scope num_scope.

(** alloc allocates the leaves one after the other. *)
Theorem C57_alloc : forall p t (v : val p t), vsized t v ->
  acts_as (s_alloc t (Some v)) (leaves t) (pmapM calloc (map Some (vleaves t v))) /\
  acts_as (s_alloc (p := p) t None) (leaves t) (pmapM calloc (repeat None (tsize t))) /\
  (forall o U tr x, o = Some v \/ o = None -> exec U (s_alloc t o) tr (Some x) -> sized t x).
Proof. exact claim_C57_alloc. Qed.
Print Assumptions C57_alloc.

Example C57_alloc_case : vsized demo_t demo_v /\ vleaves demo_t demo_v = map num [5; 1; 7; 0; 8; 1; 2]%Z /\ tsize demo_t = 7%nat.
Proof. exact case_C57_alloc. Qed.

(** from_const gives constant leaves. *)
Theorem C57_from_const : forall p t (v : val p t), vsized t v ->
  exists x, s_from_const t v = Ok x /\ sized t x /\ leaves t x = map cconst (vleaves t v).
Proof. exact claim_C57_from_const. Qed.
Print Assumptions C57_from_const.

Example C57_from_const_case : exists x, s_from_const demo_t demo_v = Ok x /\ length (leaves demo_t x) = 7%nat.
Proof. exact case_C57_from_const. Qed.

(** switch, assert_const, assert_eq go leaf by leaf. *)
Theorem C57_componentwise : forall p t (x y : sig p t) (v : val p t) (bit : CBool p),
  sized t x -> sized t y -> vsized t v ->
  acts_as (s_switch t x bit y) (leaves t) (pmapM (fun ab => cswitch (fst ab) bit (snd ab)) (combine (leaves t x) (leaves t y))) /\
  (forall U tr r, exec U (s_switch t x bit y) tr (Some r) -> sized t r) /\
  acts_as (s_assert_const t x v) (fun u => u) (piter (fun ab => cassert_const (fst ab) (snd ab)) (combine (leaves t x) (vleaves t v))) /\
  acts_as (s_assert_eq t x y) (fun u => u) (piter (fun ab => cassert_eq (fst ab) (snd ab)) (combine (leaves t x) (leaves t y))) /\
  length (leaves t x) = tsize t /\ length (leaves t y) = tsize t /\ length (vleaves t v) = tsize t.
Proof. exact claim_C57_componentwise. Qed.
Print Assumptions C57_componentwise.

Example C57_componentwise_case :  demo [] (demo_two (fun x y => r <-- s_switch demo_t x (cbconst true) y ;; s_assert_const demo_t r demo_v ;;;
    b <-- cballoc (Some false) ;; r' <-- s_switch demo_t x b y ;; s_assert_eq demo_t r' y ;;; Ret (sized demo_t r', leaves demo_t r')))
    (fun s r => map (ceval s) (snd r) = map num [5; 1; 7; 1; 8; 1; 2]%Z).
Proof. exact case_C57_componentwise. Qed.

(** is_eq: the result is 1 if all leaves agree and 0 otherwise. Vectors must not
    be empty. *)
Theorem C57_is_eq : forall p (Hp : prime (Zpos p)) t U (x y : sig p t), In I0 U -> noempty t -> sized t x -> sized t y ->
  Forall (owned U) (leaves t x) -> Forall (owned U) (leaves t y) ->
  let spec (s : Index -> Num p) (r : CBool p) :=
    (ceval s r = 1 /\ map (ceval s) (leaves t x) = map (ceval s) (leaves t y)) \/
    (ceval s r = 0 /\ map (ceval s) (leaves t x) <> map (ceval s) (leaves t y)) in
  sound_for U (s_is_eq t x y) spec /\
  complete_for U (s_is_eq t x y) (fun s => Forall (valued s) (leaves t x) /\ Forall (valued s) (leaves t y))
    (fun s r => valued s r /\ spec s r) /\
  (Forall blank (leaves t x) -> Forall blank (leaves t y) -> synth_for U (s_is_eq t x y) (fun _ _ r => blank r)).
Proof. exact claim_C57_is_eq. Qed.
Print Assumptions C57_is_eq.

Example C57_is_eq_case : prime 73 /\ noempty demo_t /\
  demo [] (demo_two (fun x y => a <-- s_is_eq demo_t x x ;; b <-- s_is_eq demo_t x y ;; Ret (a, b)))
    (fun s r => ceval s (fst r) = 1 /\ ceval s (snd r) = 0).
Proof. exact case_C57_is_eq. Qed.

(** On an empty vector is_eq panics, so it is not the (true) empty conjunction. *)
Theorem C57_is_eq_empty_panics : forall p t (x y : sig p (TVec 0 t)) U tr o,
  sized (TVec 0 t) x -> exec U (s_is_eq (TVec 0 t) x y) tr o -> o = None /\ tr = [].
Proof. exact claim_C57_is_eq_empty_panics. Qed.
Print Assumptions C57_is_eq_empty_panics.

Example C57_is_eq_empty_panics_case : sized (p := 73) (TVec 0 TNum) [] /\ exec [I0] (s_is_eq (p := 73) (TVec 0 TNum) [] []) [] None.
Proof. exact case_C57_is_eq_empty_panics. Qed.

(** get_value and as_const ([f] is the operation on CNum): they give a value iff
    every leaf has one and Booleans are 0 or 1, and it is made of the leaves' values. *)
Theorem C57_get : forall p (Hp : prime (Zpos p)) t (x : sig p t) (v : val p t), sized t x ->
  (s_get_value t x = Ok (Some v) <-> vsized t v /\ map cvalue (leaves t x) = map Some (vleaves t v)) /\
  (s_as_const t x = Ok (Some v) <-> vsized t v /\ map as_const (leaves t x) = map Some (vleaves t v)).
Proof. exact claim_C57_get. Qed.
Print Assumptions C57_get.

Example C57_get_case : exists x, s_from_const demo_t demo_v = Ok x /\ sized demo_t x /\
  s_get_value demo_t x = Ok (Some demo_v) /\ s_as_const demo_t x = Ok (Some demo_v).
Proof. exact case_C57_get. Qed.

(** A missing value: None for products of numbers and Booleans. *)
Theorem C57_get_none : forall p (Hp : prime (Zpos p)) t (x : sig p t), novec t ->
  (boolok cvalue t x -> s_get_value t x <> Panic /\ (s_get_value t x = Ok None <-> In None (map cvalue (leaves t x)))) /\
  (boolok as_const t x -> s_as_const t x <> Panic /\ (s_as_const t x = Ok None <-> In None (map as_const (leaves t x)))).
Proof. exact claim_C57_get_none. Qed.
Print Assumptions C57_get_none.

Example C57_get_none_case : novec t_point /\
  s_get_value (p := 73) t_point (cvar None (Aux 0), (cone, tt)) = Ok None /\ s_as_const (p := 73) t_point (cvar (Some 1) (Aux 0), (cone, tt)) = Ok None.
Proof. exact case_C57_get_none. Qed.

(** But a vector with a missing value panics instead of giving None. *)
Theorem C57_get_vec_panics : forall p (Hp : prime (Zpos p)) L t (x : sig p (TVec L t)) f, sized (TVec L t) x ->
  In None (map f (leaves (TVec L t) x)) -> s_get f (TVec L t) x = Panic.
Proof. exact claim_C57_get_vec_panics. Qed.
Print Assumptions C57_get_vec_panics.

Example C57_get_vec_panics_case : sized (p := 73) (TVec 2 TNum) [cone; cvar None (Aux 0)] /\
  In None (map cvalue (leaves (p := 73) (TVec 2 TNum) [cone; cvar None (Aux 0)])).
Proof. exact case_C57_get_vec_panics. Qed.

Theorem C57_get_value_refuted : exists (x : sig 73 (TVec 2 TNum)),
  sized (TVec 2 TNum) x /\ map (s_get_value TNum) x = [Ok (Some 1); Ok None] /\ s_get_value (TVec 2 TNum) x = Panic.
Proof. exact claim_C57_get_value_refuted. Qed.
Print Assumptions C57_get_value_refuted.

Example C57_get_value_refuted_case : s_get_value (p := 73) (TVec 2 TNum) [cone; cone] = Ok (Some [1; 1]).
Proof. exact case_C57_get_value_refuted. Qed.

(** C56: linearize lists the leaves, and inputize makes them public in that order. *)
Theorem C56_linearize : forall p t (x : sig p t),
  s_linearize t x = leaves t x /\ acts_as (s_inputize t x) (fun u => u) (piter cinputize (s_linearize t x)).
Proof. exact claim_C56_linearize. Qed.
Print Assumptions C56_linearize.

Example C56_linearize_case : exists x, s_from_const demo_t demo_v = Ok x /\ s_linearize demo_t x = map (fun k => cconst (num k)) [5; 1; 7; 0; 8; 1; 2]%Z.
Proof. exact case_C56_linearize. Qed.

(** In every satisfying assignment the public variables, in the order of their
    allocation, are the signals the circuit inputized, in the order of the calls. *)
Theorem C56_inputs_bound : forall p l sqrt PP (J : JubJub p l) g wit ops U tr R,
  exec U (circuit sqrt PP J g wit ops []) tr (Some R) ->
  exists cs, Forall2 (fun a c => nth_error R a = Some c) (inputized ops) cs /\
    forall s, s I0 = 1 -> sat s tr -> map (fun iv => s (fst iv)) (inputs tr) = map (ceval s) cs.
Proof. exact claim_C56_inputs_bound. Qed.
Print Assumptions C56_inputs_bound.

Example C56_inputs_bound_case : inputized demo_public = [3; 2; 0]%nat /\
  exists R, exec [I0] (circuit sqrt_search toyPP toy2 false demo_prove demo_public []) (fst demo_public_run) (Some R) /\
   map snd (inputs (fst demo_public_run)) = map Some (map num [6; 5; 1]%Z).
Proof. exact case_C56_inputs_bound. Qed.

(** While proving, the values given to the public variables are the values of
    those signals. *)
Theorem C56_inputs_values : forall p l (Hp : prime (Zpos p)) sqrt PP (J : JubJub p l) (wit : nat -> Num p) ops U tr R, In I0 U ->
  exec U (circuit sqrt PP J false (fun k => Some (wit k)) ops []) tr (Some R) ->
  exists cs, Forall2 (fun a c => nth_error R a = Some c) (inputized ops) cs /\
    map snd (inputs tr) = map cvalue cs /\
    exists s, s I0 = 1 /\ honest s tr /\ map snd (inputs tr) = map (fun c => Some (ceval s c)) cs.
Proof. exact claim_C56_inputs_values. Qed.
Print Assumptions C56_inputs_values.

Example C56_inputs_values_case : prime 73 /\
  exists R, exec [I0] (circuit sqrt_search toyPP toy2 false (fun k => Some (demo_wit k)) demo_public []) (fst demo_public_run) (Some R).
Proof. exact case_C56_inputs_values. Qed.
