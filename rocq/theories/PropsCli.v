(** Generated from CliClaims.v by tools/genprops.py. *)
From Verif Require Import CliClaims.
Open Scope num_scope.

(** get_inputs: the leaves of the public value in the order of its declaration; a
    panic if a vector has the wrong length; without a value None, except when there
    is nothing to give. *)
Theorem C72_get_inputs : forall p t (v : val p t),
  (vsized t v -> co_get_inputs t (Some v) = Ok (Some (vleaves t v))) /\
  (~ vsized t v -> co_get_inputs t (Some v) = Panic) /\
  co_get_inputs (p := p) t None = Ok (match tsize t with O => Some [] | S _ => None end).
Proof. exact claim_C72_get_inputs. Qed.
Print Assumptions C72_get_inputs.

Example C72_get_inputs_case : vsized demo_t demo_v /\ co_get_inputs demo_t (Some demo_v) = Ok (Some (map num [5; 1; 7; 0; 8; 1; 2]%Z)) /\
  ~ vsized (p := 73) (TVec 2 TNum) [num 1] /\ co_get_inputs (p := 73) (TVec 2 TNum) (Some [num 1]) = Panic.
Proof. exact case_C72_get_inputs. Qed.

(** If the circuit itself makes nothing public, the prover's public inputs are one and
    then exactly what get_inputs gives, and the key generator counts as many. *)
Theorem C72_prover : forall p A tp ts (main : sig p tp -> sig p ts -> prog p A) (v : val p tp) (w : val p ts),
  (forall x y, noin (main x y)) ->
  (forall P u, prove_system (co_synthesize tp ts main (Some v) (Some w)) = Ok (P, u) ->
     exists l, co_get_inputs tp (Some v) = Ok (Some l) /\ l = vleaves tp v /\ p_inputs P = 1 :: l) /\
  (forall K u, key_system (co_synthesize tp ts main None None) = Ok (K, u) -> k_inputs K = (1 + tsize tp)%nat).
Proof. exact claim_C72_prover. Qed.
Print Assumptions C72_prover.

Example C72_prover_case : (forall x y, noin (demo_main x y)) /\
  exists P u, prove_system (co_synthesize TNum TNum demo_main (Some (num 9)) (Some (num 3))) = Ok (P, u) /\ p_inputs P = [1; num 9] /\ p_aux P = map num [9; 3; 9]%Z.
Proof. exact case_C72_prover. Qed.

Theorem C72_bound : forall p A tp ts (main : sig p tp -> sig p ts -> prog p A) v w U tr,
  (forall x y, noin (main x y)) -> exec U (co_synthesize tp ts main v w) tr (Some tt) ->
  exists x y t1 t2 t3 t4 a, tr = t1 ++ t2 ++ t3 ++ t4 /\ exec U (s_alloc tp v) t1 (Some x) /\
    exec (vars t2 (vars t1 U)) (main x y) t3 (Some a) /\
    forall s, s I0 = 1 -> sat s tr -> map (fun iv => s (fst iv)) (inputs tr) = map (ceval s) (leaves tp x).
Proof. exact claim_C72_bound. Qed.
Print Assumptions C72_bound.

Example C72_bound_case : (forall x y, noin (demo_main x y)) /\ exec [I0] demo_co (fst (run 0 demo_co)) (Some tt) /\
  map snd (inputs (fst (run 0 demo_co))) = [Some (num 9)] /\ length (constraints (fst (run 0 demo_co))) = 3%nat.
Proof. exact case_C72_bound. Qed.

(** A public Boolean is not constrained to be zero or one: get_inputs only ever gives
    zero or one, but the constraints hold with any public number in its place. *)
Theorem C72_public_bool_refuted : exists (s : Index -> Num 251) tr i w,
  exec [I0] (co_synthesize TBool TNum (fun _ _ => Ret tt) (Some true) (Some (num 3))) tr (Some tt) /\
  s I0 = 1 /\ sat s tr /\ inputs tr = [(i, w)] /\ s i <> 0 /\ s i <> 1.
Proof. exact claim_C72_public_bool_refuted. Qed.
Print Assumptions C72_public_bool_refuted.
