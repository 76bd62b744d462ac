(** Poseidon and Poseidon Merkle trees: native/poseidon.rs and
    circuit/poseidon.rs. Definitions only. *)

From Verif Require Export Circuit.

Section Poseidon.
Context {p : positive}.
Notation F := (Num p).

(** PoseidonParams (native/poseidon.rs:9-16). *)
Record PoseidonParams := mkPP { ppc : list F; ppm : list (list F); ppt : nat; ppf : nat; ppp : nat }.

(** ** Native *)

(** ark (native/poseidon.rs:32-34). *)
Definition ark (st : list F) (c : F) : list F := map (fun e => nadd e c) st.
(** sigma (36-38). *)
Definition sigma (a : F) : F := nmul (nsquare (nsquare a)) a.
(** mix (40-49). Row [i] is traversed along the state; [params.m[i][j]] out of
    range panics. *)
Fixpoint mix_row (row st : list F) (acc : F) {struct st} : res F :=
  match st with
  | [] => Ok acc
  | x :: st' => match row with [] => Panic | k :: row' => mix_row row' st' (nadd acc (nmul k x)) end
  end.
Fixpoint mix_rows (n : nat) (m : list (list F)) (st : list F) : res (list F) :=
  match n with
  | O => Ok []
  | S n' => match m with
            | [] => Panic
            | row :: m' => x <-? mix_row row st n0 ; xs <-? mix_rows n' m' st ; Ok (x :: xs)
            end
  end.
Definition mix (m : list (list F)) (st : list F) : res (list F) := mix_rows (length st) m st.

(** Which rounds apply sigma to the whole state (62-69). *)
Definition full_round (P : PoseidonParams) (i : nat) : bool :=
  (Nat.ltb i (Nat.div2 (ppf P)) || Nat.leb (Nat.div2 (ppf P) + ppp P) i)%bool.
Definition round (P : PoseidonParams) (i : nat) (st : list F) : res (list F) :=
  c <-? unwrap (nth_error (ppc P) i) ;
  let st := ark st c in
  st <-? (if full_round P i then Ok (map sigma st)
          else match st with [] => Panic | x :: xs => Ok (sigma x :: xs) end) ;
  mix (ppm P) st.
Fixpoint rounds (P : PoseidonParams) (is : list nat) (st : list F) : res (list F) :=
  match is with
  | [] => Ok st
  | i :: is' => st' <-? round P i st ; rounds P is' st'
  end.
(** poseidon (51-75). The sum [f + p] is taken not to overflow. *)
Definition poseidon (P : PoseidonParams) (inputs : list F) : res F :=
  _ <-? rassert (Nat.leb (length inputs) (ppt P)) ;
  _ <-? rassert (Nat.ltb 0 (length inputs)) ;
  st <-? rounds P (seq 0 (ppf P + ppp P)) (inputs ++ repeat n0 (ppt P - length inputs)) ;
  unwrap (nth_error st 0).

(** poseidon_with_salt (77-91). [salt] is [Num::from_seed(seed)]. *)
Definition poseidon_with_salt (P : PoseidonParams) (inputs : list F) (salt : F) : res F :=
  _ <-? rassert (Nat.ltb 0 (length inputs)) ;
  _ <-? rassert (Nat.ltb (length inputs) (ppt P)) ;
  poseidon P (inputs ++ [salt]).

(** poseidon_merkle_proof_root (100-111); [zip] stops at the shorter list. *)
Fixpoint merkle_proof_root (P : PoseidonParams) (root : F) (proof : list (bool * F)) : res F :=
  match proof with
  | [] => Ok root
  | (b, s) :: proof' =>
      root' <-? poseidon P (if b : bool then [s; root] else [root; s]) ;
      merkle_proof_root P root' proof'
  end.
Definition poseidon_merkle_proof_root (P : PoseidonParams) (leaf : F) (sibling : list F) (path : list bool) : res F :=
  merkle_proof_root P leaf (combine path sibling).

(** [state[i] = x]. *)
Fixpoint set_nth {A} (i : nat) (x : A) (l : list A) : list A :=
  match l, i with
  | [], _ => []
  | _ :: l', O => x :: l'
  | y :: l', S i' => y :: set_nth i' x l'
  end.
(** usize::BITS - (n - 1).leading_zeros(): the bit length of [n - 1]. *)
Definition bit_len (m : nat) : nat := match m with O => O | _ => S (Nat.log2 m) end.

(** One level of the loop of poseidon_merkle_tree_root (120-124), in place. *)
Fixpoint tree_level (P : PoseidonParams) (is : list nat) (st : list F) : res (list F) :=
  match is with
  | [] => Ok st
  | i :: is' =>
      a <-? unwrap (nth_error st (2 * i)) ;
      b <-? unwrap (nth_error st (2 * i + 1)) ;
      h <-? poseidon P [a; b] ;
      _ <-? rassert (Nat.ltb i (length st)) ;
      tree_level P is' (set_nth i h st)
  end.
Fixpoint tree_levels (P : PoseidonParams) (total : nat) (js : list nat) (st : list F) : res (list F) :=
  match js with
  | [] => Ok st
  | j :: js' => st' <-? tree_level P (seq 0 (total / 2 ^ (j + 1))) st ; tree_levels P total js' st'
  end.
(** poseidon_merkle_tree_root (113-126). The leaf count is taken to be at most
    2^63, so that the shift does not overflow. *)
Definition poseidon_merkle_tree_root (P : PoseidonParams) (leaf : list F) : res F :=
  _ <-? rassert (Nat.ltb 0 (length leaf)) ;
  let proof_sz := bit_len (length leaf - 1) in
  let total := (2 ^ proof_sz)%nat in
  st <-? tree_levels P total (seq 0 proof_sz) (leaf ++ repeat n0 (total - length leaf)) ;
  unwrap (nth_error st 0).

(** ** Circuit *)

(** ark (circuit/poseidon.rs:21-23). *)
Definition c_ark (st : list (CNum p)) (c : F) : list (CNum p) := map (fun e => cadd_num e c) st.
(** sigma (25-29). *)
Definition c_sigma (a : CNum p) : prog p (CNum p) :=
  a_sq <-- cmul a a ;; a_quad <-- cmul a_sq a_sq ;; cmul a_quad a.
(** mix (31-41). *)
Fixpoint c_mix_row (row : list F) (st : list (CNum p)) (acc : CNum p) {struct st} : res (CNum p) :=
  match st with
  | [] => Ok acc
  | x :: st' => match row with [] => Panic | k :: row' => c_mix_row row' st' (cadd acc (cmul_num x k)) end
  end.
Fixpoint c_mix_rows (n : nat) (m : list (list F)) (st : list (CNum p)) : res (list (CNum p)) :=
  match n with
  | O => Ok []
  | S n' => match m with
            | [] => Panic
            | row :: m' => x <-? c_mix_row row st czero ; xs <-? c_mix_rows n' m' st ; Ok (x :: xs)
            end
  end.
Definition c_mix (m : list (list F)) (st : list (CNum p)) : res (list (CNum p)) :=
  match st with [] => Panic | _ => c_mix_rows (length st) m st end.

(** Which rounds apply sigma to the whole state (57-66). *)
Definition c_full_round (P : PoseidonParams) (i : nat) : bool :=
  (Nat.ltb i (Nat.div2 (ppf P)) || Nat.leb (Nat.div2 (ppf P) + ppp P) i)%bool.
Definition c_round (P : PoseidonParams) (i : nat) (st : list (CNum p)) : prog p (list (CNum p)) :=
  c <-- plift (unwrap (nth_error (ppc P) i)) ;;
  let st := c_ark st c in
  st <-- (if c_full_round P i then pmapM c_sigma st
          else match st with [] => PPanic | x :: xs => x' <-- c_sigma x ;; Ret (x' :: xs) end) ;;
  plift (c_mix (ppm P) st).
Fixpoint c_rounds (P : PoseidonParams) (is : list nat) (st : list (CNum p)) : prog p (list (CNum p)) :=
  match is with
  | [] => Ret st
  | i :: is' => st' <-- c_round P i st ;; c_rounds P is' st'
  end.
(** c_poseidon (43-71). *)
Definition c_poseidon (P : PoseidonParams) (inputs : list (CNum p)) : prog p (CNum p) :=
  passert (Nat.leb (length inputs) (ppt P)) ;;;
  passert (Nat.ltb 0 (length inputs)) ;;;
  st <-- c_rounds P (seq 0 (ppf P + ppp P)) (inputs ++ repeat czero (ppt P - length inputs)) ;;
  plift (unwrap (nth_error st 0)).

(** c_poseidon_with_salt (73-88). *)
Definition c_poseidon_with_salt (P : PoseidonParams) (inputs : list (CNum p)) (salt : F) : prog p (CNum p) :=
  passert (Nat.ltb 0 (length inputs)) ;;;
  passert (Nat.ltb (length inputs) (ppt P)) ;;;
  c_poseidon P (inputs ++ [cconst salt]).

(** c_poseidon_merkle_proof_root (90-102). *)
Fixpoint c_merkle_proof_root (P : PoseidonParams) (root : CNum p) (proof : list (CBool p * CNum p)) : prog p (CNum p) :=
  match proof with
  | [] => Ret root
  | (b, s) :: proof' =>
      first <-- cswitch s b root ;;
      let second := csub (cadd_cap root s) first in
      root' <-- c_poseidon P [first; second] ;;
      c_merkle_proof_root P root' proof'
  end.
Definition c_poseidon_merkle_proof_root (P : PoseidonParams) (leaf : CNum p)
    (sibling : list (CNum p)) (path : list (CBool p)) : prog p (CNum p) :=
  c_merkle_proof_root P leaf (combine path sibling).

(** c_poseidon_merkle_tree_root (104-121). *)
Fixpoint c_tree_level (P : PoseidonParams) (is : list nat) (st : list (CNum p)) : prog p (list (CNum p)) :=
  match is with
  | [] => Ret st
  | i :: is' =>
      a <-- plift (unwrap (nth_error st (2 * i))) ;;
      b <-- plift (unwrap (nth_error st (2 * i + 1))) ;;
      h <-- c_poseidon P [a; b] ;;
      passert (Nat.ltb i (length st)) ;;;
      c_tree_level P is' (set_nth i h st)
  end.
Fixpoint c_tree_levels (P : PoseidonParams) (total : nat) (js : list nat) (st : list (CNum p)) : prog p (list (CNum p)) :=
  match js with
  | [] => Ret st
  | j :: js' => st' <-- c_tree_level P (seq 0 (total / 2 ^ (j + 1))) st ;; c_tree_levels P total js' st'
  end.
Definition c_poseidon_merkle_tree_root (P : PoseidonParams) (leaf : list (CNum p)) : prog p (CNum p) :=
  passert (Nat.ltb 0 (length leaf)) ;;;
  let proof_sz := bit_len (length leaf - 1) in
  let total := (2 ^ proof_sz)%nat in
  st <-- c_tree_levels P total (seq 0 proof_sz) (leaf ++ repeat czero (total - length leaf)) ;;
  plift (unwrap (nth_error st 0)).
End Poseidon.
Arguments PoseidonParams : clear implicits.
