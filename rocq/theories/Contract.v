(** The contract that ethereum.rs prints (the template of ethereum.rs:7-196 with the key
    filled in), read as a program. Words are integers from 0 to 2^256 - 1 and [None] is a
    revert. Solidity 0.6 and the EVM are external: the precompiled contracts 6, 7 and 8 are
    those of EIP-196 and EIP-197, with the pairing itself a parameter; running out of gas is
    left out. Model only. *)

From Verif Require Export Verifier.
Open Scope Z_scope.

Definition obind {A B} (x : option A) (f : A -> option B) : option B := match x with Some a => f a | None => None end.
Notation "x <-! m ; k" := (obind m (fun x => k)) (at level 61, m at next level, right associativity).
(** require *)
Definition orequire (b : bool) : option unit := if b then Some tt else None.

(** ** Precompiled contracts *)
(** Points of y^2 = x^3 + 3 and of its twist; [None] is infinity. *)
Definition ecpt (K : Type) : Type := option (K * K).
Definition ev_q : Z := 21888242871839275222246405745257275088696311157297823662689037894645226208583.
(** EIP-196: two words, each below q; (0, 0) is infinity; anything else must be on the curve. *)
Definition ev_point1 (X Y : Z) : option (ecpt (Num bn_q)) :=
  if (X <? ev_q) && (Y <? ev_q) then
    if (X =? 0) && (Y =? 0) then Some None
    else if is_on_curve (fq bn_q) (num X) (num Y) false (num 3) then Some (Some (num X, num Y)) else None
  else None.
Definition ev_words1 (P : ecpt (Num bn_q)) : Z * Z := match P with None => (0, 0) | Some (x, y) => (nval x, nval y) end.
(** ECADD, at address 6, and ECMUL, at address 7: what is missing of the input is read as
    zero, what is too much is ignored. *)
Definition ev_add (input : list Z) : option (Z * Z) :=
  P <-! ev_point1 (nth 0 input 0) (nth 1 input 0) ;
  Q <-! ev_point1 (nth 2 input 0) (nth 3 input 0) ;
  Some (ev_words1 (wadd (fq bn_q) P Q)).
Definition ev_times {K} (O : fops K) (s : Z) (P : ecpt K) : ecpt K := match s with Zpos k => wmul O k P | _ => None end.
Definition ev_mul (input : list Z) : option (Z * Z) :=
  P <-! ev_point1 (nth 0 input 0) (nth 1 input 0) ;
  Some (ev_words1 (ev_times (fq bn_q) (nth 2 input 0) P)).
(** EIP-197: a point of the twist is four words, imaginary parts first, and must be in the
    subgroup of order r. *)
Definition ev_point2 (X1 X0 Y1 Y0 : Z) : option (ecpt (Fq2 bn_q)) :=
  if (X1 <? ev_q) && (X0 <? ev_q) && (Y1 <? ev_q) && (Y0 <? ev_q) then
    if (X1 =? 0) && (X0 =? 0) && (Y1 =? 0) && (Y0 =? 0) then Some None
    else
      let x := mkFq2 (num X0) (num X1) in let y := mkFq2 (num Y0) (num Y1) in
      if is_on_curve (fq2 bn_q) x y false bn_b2 then
        match wmul (fq2 bn_q) bn_ord (Some (x, y)) with None => Some (Some (x, y)) | Some _ => None end
      else None
  else None.

Section Contract.
(** Is the product of the pairings one? *)
Variable check : list (ecpt (Num bn_q) * ecpt (Fq2 bn_q)) -> bool.
(** address 8: groups of six words *)
Fixpoint ev_pairs (input : list Z) : option (list (ecpt (Num bn_q) * ecpt (Fq2 bn_q))) :=
  match input with
  | [] => Some []
  | X :: Y :: X1 :: X0 :: Y1 :: Y0 :: input =>
      P <-! ev_point1 X Y ; Q <-! ev_point2 X1 X0 Y1 Y0 ; l <-! ev_pairs input ; Some ((P, Q) :: l)
  | _ => None
  end.
Definition ev_pairing (input : list Z) : option Z := l <-! ev_pairs input ; Some (if check l then 1 else 0).

(** ** library Pairing *)
(** struct G1Point (ethereum.rs:12-15), struct G2Point (18-21) *)
Definition g1point : Type := Z * Z.
Definition g2point : Type := (Z * Z) * (Z * Z).
(** PRIME_Q (ethereum.rs:10, 128) and SNARK_SCALAR_FIELD (127) *)
Definition PRIME_Q : Z := 21888242871839275222246405745257275088696311157297823662689037894645226208583.
Definition SNARK_SCALAR_FIELD : Z := 21888242871839275222246405745257275088548364400416034343698204186575808495617.
(** negate (ethereum.rs:26-33) *)
Definition sol_negate (p : g1point) : g1point :=
  if (fst p =? 0) && (snd p =? 0) then (0, 0) else (fst p, PRIME_Q - (snd p mod PRIME_Q)).
(** What lies in memory behind the array [input] when a call reads past its end: 0xc0 bytes
    of four words in [plus], 0x80 bytes of three words in [scalar_mul]. *)
Variable beyond : list Z -> list Z.
(** plus (ethereum.rs:38-57). The output is two words; that 0x60 bytes are allowed for it changes nothing. *)
Definition sol_plus (p1 p2 : g1point) : option g1point :=
  let input := [fst p1; snd p1; fst p2; snd p2] in
  ev_add (firstn 6 (input ++ beyond input)).
(** scalar_mul (ethereum.rs:64-77) *)
Definition sol_scalar_mul (p : g1point) (s : Z) : option g1point :=
  let input := [fst p; snd p; s] in
  ev_mul (firstn 4 (input ++ beyond input)).
(** pairing (ethereum.rs:84-123) *)
Definition sol_pairing (a1 : g1point) (a2 : g2point) (b1 : g1point) (b2 : g2point) (c1 : g1point) (c2 : g2point)
    (d1 : g1point) (d2 : g2point) : option bool :=
  let p1 := [a1; b1; c1; d1] in
  let p2 := [a2; b2; c2; d2] in
  let input := concat (map (fun pq : g1point * g2point =>
    [fst (fst pq); snd (fst pq); fst (fst (snd pq)); snd (fst (snd pq)); fst (snd (snd pq)); snd (snd (snd pq))]) (combine p1 p2)) in
  out <-! ev_pairing input ;
  Some (negb (out =? 0)).

(** ** contract Verifier *)
(** struct VerifyingKey (ethereum.rs:131-137) and verifyingKey() (145-151): the constructor
    arguments are the numbers of the key, in the order they are printed. *)
Record solvk := mkSolVK { sv_alfa1 : g1point; sv_beta2 : g2point; sv_gamma2 : g2point; sv_delta2 : g2point; sv_IC : list g1point }.
Definition g1_words (d : G1Data bn_q) : g1point := (nval (fst d), nval (snd d)).
Definition g2_words (d : G2Data bn_q) : g2point := ((nval (fst (fst d)), nval (snd (fst d))), (nval (fst (snd d)), nval (snd (snd d)))).
Definition verifyingKey (vk : VKData bn_q) : solvk :=
  mkSolVK (g1_words (vd_alpha vk)) (g2_words (vd_beta vk)) (g2_words (vd_gamma vk)) (g2_words (vd_delta vk)) (map g1_words (vd_ic vk)).
(** the loop over the inputs (ethereum.rs:179-182); [i] counts *)
Fixpoint sol_inputs (IC : list g1point) (i : nat) (input : list Z) (vk_x : g1point) : option g1point :=
  match input with
  | [] => Some vk_x
  | s :: input =>
      _ <-! orequire (s <? SNARK_SCALAR_FIELD) ;
      ic <-! nth_error IC (i + 1) ;
      t <-! sol_scalar_mul ic s ;
      vk_x <-! sol_plus vk_x t ;
      sol_inputs IC (S i) input vk_x
  end.
(** verifyProof (ethereum.rs:157-194); the proof is eight words, [input] as many as the key has ic points, minus one *)
Definition verifyProof (key : VKData bn_q) (p : list Z) (input : list Z) : option bool :=
  _ <-! orequire (forallb (fun w => w <? PRIME_Q) p) ;
  let A := (nth 0 p 0, nth 1 p 0) in
  let B := ((nth 2 p 0, nth 3 p 0), (nth 4 p 0, nth 5 p 0)) in
  let C := (nth 6 p 0, nth 7 p 0) in
  let vk := verifyingKey key in
  ic0 <-! nth_error (sv_IC vk) 0 ;
  vk_x <-! sol_plus (0, 0) ic0 ;
  vk_x <-! sol_inputs (sv_IC vk) 0 input vk_x ;
  sol_pairing (sol_negate A) B (sv_alfa1 vk) (sv_beta2 vk) vk_x (sv_gamma2 vk) C (sv_delta2 vk).
End Contract.
