(** Generated from CircuitClaims.v by tools/genprops.py. *)
From Verif Require Import CircuitClaims.
Open Scope num_scope.

Theorem C80_sound : forall (p l : positive) (sqrt : Num p -> option (Num p)) (PP : @PoseidonParams p) (J : JubJub p l) wit ops tr R s, params_ok sqrt PP J ->
  exec [I0] (circuit sqrt PP J false wit ops []) tr (Some R) -> s I0 = 1 -> sat s tr ->
  exists Rs, R = concat Rs /\ meets sqrt PP J s ops Rs /\ (honest s tr -> draws wit s ops Rs).
Proof. exact claim_C80_sound. Qed.
Print Assumptions C80_sound.

Theorem C80_complete : forall (p l : positive) (sqrt : Num p -> option (Num p)) (PP : @PoseidonParams p) (J : JubJub p l) wit ops, params_ok sqrt PP J ->
  (forall n, wit n <> None) ->
  (forall k o tr1 Rs s, nth_error ops k = Some o -> exec [I0] (circuit sqrt PP J false wit (firstn k ops) []) tr1 (Some (concat Rs)) ->
     s I0 = 1 -> honest s tr1 -> sat s tr1 -> meets sqrt PP J s (firstn k ops) Rs -> draws wit s (firstn k ops) Rs ->
     ready sqrt PP J (concat Rs) (map (ceval s) (concat Rs)) o) ->
  forall tr o, exec [I0] (circuit sqrt PP J false wit ops []) tr o ->
  exists s Rs, s I0 = 1 /\ honest s tr /\ sat s tr /\ o = Some (concat Rs) /\ meets sqrt PP J s ops Rs /\ draws wit s ops Rs.
Proof. exact claim_C80_complete. Qed.
Print Assumptions C80_complete.

Theorem C80_library : forall (sqrt : Num bn_r -> option (Num bn_r)), (forall a, match sqrt a with Some b => b * b = a | None => ~ is_square a end) ->
  exists J P, jubjub_bn sqrt = Ok J /\ pp_new 64 true 4 8 54 = Ok (Some P) /\ params_ok sqrt P J.
Proof. exact claim_C80_library. Qed.
Print Assumptions C80_library.

Example C80_complete_case : exists J P, jubjub_bn sqrt_search = Ok J /\ pp_new 64 true 4 8 54 = Ok (Some P) /\ params_ok sqrt_search P J /\
  forall x y, let wit k := Some (if (k =? 0)%nat then x else y) in
  exists tr s R h, exec [I0] (circuit sqrt_search P J false wit hash_ops []) tr (Some R) /\ s I0 = 1 /\ honest s tr /\ sat s tr /\
    poseidon P [x; y] = Ok h /\ map (ceval s) R = [x; y; h].
Proof. exact case_C80_complete. Qed.

Example C80_sound_case : exists (J : JubJub bn_r bn_l) (P : @PoseidonParams bn_r) wit tr R s, params_ok sqrt_search P J /\
  exec [I0] (circuit sqrt_search P J false wit hash_ops []) tr (Some R) /\ s I0 = 1 /\ sat s tr /\ map (ceval s) R <> [].
Proof. exact case_C80_sound. Qed.

Example C80_library_case : forall a : Num bn_r, match sqrt_search a with Some b => b * b = a | None => ~ is_square a end.
Proof. exact case_C80_library. Qed.
