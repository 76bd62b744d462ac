(** Curve gadgets: src/circuit/ecc.rs, and the signature gadget
    src/circuit/eddsaposeidon.rs. Model only.

    Literals [num!(k)] with k <= 8 are written [num k]: the moduli are above 8. *)

From Verif Require Export Bitify Poseidon Ecc Eddsa.
Open Scope num_scope.

Section CEcc.
Context {p : positive}.
Notation F := (Num p).

(** CEdwardsPoint, CMontgomeryPoint (ecc.rs:15-27): both are two coordinates. *)
Record CPoint := mkP { px : CNum p; py : CNum p }.

(** Derived Signal methods (fawkes-crypto_derive/src/signal.rs:155-217). *)
Definition cp_get_value (P : CPoint) : option (F * F) :=
  match cvalue (px P) with
  | None => None
  | Some x => match cvalue (py P) with None => None | Some y => Some (x, y) end
  end.
Definition cp_as_const (P : CPoint) : option (F * F) :=
  match as_const (px P) with
  | None => None
  | Some x => match as_const (py P) with None => None | Some y => Some (x, y) end
  end.
Definition cp_from_const (x y : F) : CPoint := mkP (cconst x) (cconst y).
Definition cp_alloc (v : option (F * F)) : prog p CPoint :=
  x <-- calloc (option_map fst v) ;;
  y <-- calloc (option_map snd v) ;;
  Ret (mkP x y).
Definition cp_switch (P : CPoint) (bit : CBool p) (Q : CPoint) : prog p CPoint :=
  x <-- cswitch (px P) bit (px Q) ;;
  y <-- cswitch (py P) bit (py Q) ;;
  Ret (mkP x y).

Definition e_pair (P : EPoint p) : F * F := (ex P, ey P).

(** CEdwardsPoint::double (ecc.rs:30-38) *)
Definition ce_double (dd : F) (P : CPoint) : prog p CPoint :=
  v <-- cmul (px P) (py P) ;;
  v2 <-- csquare v ;;
  u <-- csquare (cadd_cap (px P) (py P)) ;;
  x <-- cdiv (cmul_num v (num 2)) (cadd_num (cmul_num v2 dd) n1) ;;
  y <-- cdiv (csub u (cmul_num v (num 2))) (num_csub n1 (cmul_num v2 dd)) ;;
  Ret (mkP x y).
(** mul_by_cofactor (ecc.rs:40-42) *)
Definition ce_mul_by_cofactor (dd : F) (P : CPoint) : prog p CPoint :=
  P <-- ce_double dd P ;; P <-- ce_double dd P ;; ce_double dd P.
(** add (ecc.rs:44-53) *)
Definition ce_add (dd : F) (P Q : CPoint) : prog p CPoint :=
  v1 <-- cmul (px P) (py Q) ;;
  v2 <-- cmul (px Q) (py P) ;;
  v12 <-- cmul v1 v2 ;;
  u <-- cmul (cadd_cap (px P) (py P)) (cadd_cap (px Q) (py Q)) ;;
  x <-- cdiv (cadd_cap v1 v2) (cadd_num (cmul_num v12 dd) n1) ;;
  y <-- cdiv (csub (csub u v1) v2) (num_csub n1 (cmul_num v12 dd)) ;;
  Ret (mkP x y).
(** assert_in_curve (ecc.rs:55-60) *)
Definition ce_assert_in_curve (dd : F) (P : CPoint) : prog p unit :=
  x2 <-- csquare (px P) ;;
  y2 <-- csquare (py P) ;;
  enforce (cmul_num x2 dd) y2 (csub_num (csub y2 x2) n1).

(** [num!(8).inverse()] in Fs *)
Definition inv8 (l : positive) : res (Num l) := ninv (num 8).
(** assert_in_subgroup (ecc.rs:62-70) *)
Definition ce_assert_in_subgroup (l : positive) (dd : F) (P : CPoint) : prog p unit :=
  v <-- plift (omapM (fun xy => i8 <-? inv8 l ; rmap e_pair (e_mul dd (mkE (fst xy) (snd xy)) i8)) (cp_get_value P)) ;;
  Q <-- cp_alloc v ;;
  ce_assert_in_curve dd Q ;;;
  Q8 <-- ce_mul_by_cofactor dd Q ;;
  cassert_zero (csub (px P) (px Q8)) ;;;
  cassert_zero (csub (py P) (py Q8)).
(** subgroup_decompress (ecc.rs:72-83) *)
Definition ce_subgroup_decompress (sqrt : F -> option F) {l} (J : JubJub p l) (x : CNum p) : prog p CPoint :=
  v <-- plift (omapM (fun x =>
          o <-? subgroup_decompress sqrt l (jd J) x ;
          i8 <-? inv8 l ;
          rmap e_pair (e_mul (jd J) (match o with Some P => P | None => jg J end) i8)) (cvalue x)) ;;
  Q <-- cp_alloc v ;;
  ce_assert_in_curve (jd J) Q ;;;
  Q8 <-- ce_mul_by_cofactor (jd J) Q ;;
  cassert_zero (csub x (px Q8)) ;;;
  Ret Q8.
(** into_montgomery (ecc.rs:86-90) *)
Definition ce_into_montgomery (P : CPoint) : prog p CPoint :=
  x <-- cdiv (cadd_num (py P) n1) (num_csub n1 (py P)) ;;
  y <-- cdiv x (px P) ;;
  Ret (mkP x y).

(** CMontgomeryPoint::double (ecc.rs:251-262) *)
Definition cm_double (a b : F) (M : CPoint) : prog p CPoint :=
  x2 <-- csquare (px M) ;;
  l <-- cdiv (cadd_num (cadd_cap (cmul_num x2 (num 3)) (cmul_num (px M) (num 2 * a))) n1)
             (cmul_num (py M) (num 2 * b)) ;;
  l2 <-- csquare l ;;
  let b_l2 := cmul_num l2 b in
  let x := csub (csub_num b_l2 a) (cmul_num (px M) (num 2)) in
  t <-- cmul l (csub (cadd_num (cmul_num (px M) (num 3)) a) b_l2) ;;
  Ret (mkP x (csub t (py M))).
(** add (ecc.rs:265-274) *)
Definition cm_add (a b : F) (M N : CPoint) : prog p CPoint :=
  l <-- cdiv (csub (py N) (py M)) (csub (px N) (px M)) ;;
  l2 <-- csquare l ;;
  let b_l2 := cmul_num l2 b in
  let x := csub (csub (csub_num b_l2 a) (px M)) (px N) in
  t <-- cmul l (csub (cadd_num (cadd (cmul_num (px M) (num 2)) (px N)) a) b_l2) ;;
  Ret (mkP x (csub t (py M))).
(** into_edwards (ecc.rs:277-283) *)
Definition cm_into_edwards (M : CPoint) : prog p CPoint :=
  yz <-- cis_zero (py M) ;;
  x <-- cdiv (px M) (cadd_rv (py M) yz) ;;
  y <-- cdiv (csub_num (px M) n1) (cadd_num (px M) n1) ;;
  Ret (mkP x y).

(** gen_table (ecc.rs:94-108), [n] rows of it *)
Fixpoint gen_table_loop (n : nat) (dd : F) (P q : XPoint p) : res (list (F * F)) :=
  match n with
  | O => Ok []
  | S n' =>
      o <-? x_into_montgomery q ;
      m <-? unwrap o ;
      r <-? gen_table_loop n' dd P (x_add dd q P) ;
      Ok ((mx m, my m) :: r)
  end.
Definition gen_table (dd : F) (P : XPoint p) : res (list (list F)) :=
  t <-? gen_table_loop 8 dd P P ; Ok [map fst t; map snd t].
Definition x_double3 (P : XPoint p) : XPoint p := x_double (x_double (x_double P)).
(** The loop of ecc.rs:132-135: the starting accumulator. *)
Fixpoint start_loop (n : nat) (dd : F) (base acc : XPoint p) : XPoint p :=
  match n with
  | O => acc
  | S n' => start_loop n' dd (x_double3 base) (x_add dd acc base)
  end.
(** The loop over windows (ecc.rs:142-151); [n] windows are left. *)
Fixpoint windows_loop (n : nat) (dd a b : F) (bits : list (CBool p)) (base : XPoint p) (acc : CPoint) : prog p CPoint :=
  match n with
  | O => Ret acc
  | S n' =>
      match bits with
      | b0 :: b1 :: b2 :: bits' =>
          table <-- plift (gen_table dd base) ;;
          res <-- c_mux3 [b0; b1; b2] table ;;
          match res with
          | [x; y] =>
              acc <-- cm_add a b acc (mkP x y) ;;
              windows_loop n' dd a b bits' (x_double3 base) acc
          | _ => PPanic
          end
      | _ => PPanic
      end
  end.
(** mul, constant base (ecc.rs:112-159) *)
Definition ce_mul_const {l} (J : JubJub p l) (c : EPoint p) (bits : list (CBool p)) : prog p CPoint :=
  let c_base := e_into_extended c in
  if x_is_zero c_base then Ret (cp_from_const n0 n1)
  else
    let bits_len := length bits in
    let zeros_len := Nat.modulo (3 - Nat.modulo bits_len 3) 3 in
    let all_bits := bits ++ repeat (cbconst false) zeros_len in
    let nwindows := Nat.div (length all_bits) 3 in
    let acc := start_loop nwindows (jd J) c_base (e_into_extended (mkE n0 (- n1))) in
    o <-- plift (x_into_montgomery (x_negate acc)) ;;
    mp <-- plift (unwrap o) ;;
    acc <-- windows_loop nwindows (jd J) (ja J) (jb J) all_bits c_base (cp_from_const (mx mp) (my mp)) ;;
    res <-- cm_into_edwards acc ;;
    Ret (mkP (cneg (px res)) (cneg (py res))).
(** The loop of ecc.rs:169-172: all doublings but the first entry *)
Fixpoint exponents_loop (n : nat) (a b : F) (M : CPoint) : prog p (list CPoint) :=
  match n with
  | O => Ret []
  | S n' => M <-- cm_double a b M ;; r <-- exponents_loop n' a b M ;; Ret (M :: r)
  end.
(** The loop of ecc.rs:180-183 *)
Fixpoint acc_loop (a b : F) (bits : list (CBool p)) (exps : list CPoint) (acc : CPoint) : prog p CPoint :=
  match bits with
  | [] => Ret acc
  | bit :: bits' =>
      match exps with
      | [] => PPanic
      | e :: exps' =>
          inc <-- cm_add a b acc e ;;
          acc <-- cp_switch inc bit acc ;;
          acc_loop a b bits' exps' acc
      end
  end.
(** mul, other bases (ecc.rs:160-192) *)
Definition ce_mul_var {l} (J : JubJub p l) (P : CPoint) (bits : list (CBool p)) : prog p CPoint :=
  base_is_zero <-- cis_zero (px P) ;;
  base_point <-- cp_switch (cp_from_const (ex (jg J)) (ey (jg J))) base_is_zero P ;;
  base_point <-- ce_into_montgomery base_point ;;
  exps <-- exponents_loop (length bits - 1) (ja J) (jb J) base_point ;;
  let empty := mkP czero czero in
  acc <-- acc_loop (ja J) (jb J) bits (base_point :: exps) empty ;;
  acc <-- cp_switch empty base_is_zero acc ;;
  res <-- cm_into_edwards acc ;;
  Ret (mkP (cneg (px res)) (cneg (py res))).
(** mul (ecc.rs:93-194) *)
Definition ce_mul {l} (J : JubJub p l) (P : CPoint) (bits : list (CBool p)) : prog p CPoint :=
  match cp_as_const P with
  | Some (x, y) => ce_mul_const J (mkE x y) bits
  | None => ce_mul_var J P bits
  end.

(** check_and_get_y (ecc.rs:206-228) *)
Definition check_and_get_y (sqrt : F -> option F) (a b u : F) (x : CNum p) : prog p (CBool p * CNum p) :=
  x2 <-- csquare x ;;
  t <-- cmul x2 (cadd_num x a) ;;
  g <-- plift (cdiv_num (cadd t x) b) ;;
  v <-- plift (omapM (fun g => match sqrt g with
                               | Some r => Ok (filter_even r)
                               | None => rmap filter_even (unwrap (sqrt (g * u)))
                               end) (cvalue g)) ;;
  preimage <-- calloc v ;;
  bits <-- c_into_bits_le_strict preimage ;;
  b0 <-- plift (unwrap (nth_error bits 0)) ;;
  cb_assert_false b0 ;;;
  preimage_square <-- csquare preimage ;;
  is_square <-- cis_zero (csub g preimage_square) ;;
  isnot_square <-- cis_zero (csub (cmul_num g u) preimage_square) ;;
  cassert_zero (csub_num (cadd_rv is_square isnot_square) n1) ;;;
  Ret (is_square, preimage).
(** from_scalar (ecc.rs:197-246) *)
Definition ce_from_scalar (sqrt : F -> option F) {l} (J : JubJub p l) (t : CNum p) : prog p CPoint :=
  let t := cadd_num t n1 in
  tt2 <-- csquare t ;;
  let t2g1 := cmul_num tt2 (ju J) in
  m1a <-- plift (ndiv (- n1) (ja J)) ;;
  let x3 := cmul_num (cadd_num t2g1 n1) m1a in
  x2 <-- cdiv x3 t2g1 ;;
  '(is_valid, y2) <-- check_and_get_y sqrt (ja J) (jb J) (ju J) x2 ;;
  '(_, y3) <-- check_and_get_y sqrt (ja J) (jb J) (ju J) x3 ;;
  x <-- cswitch x2 is_valid x3 ;;
  y <-- cswitch y2 is_valid y3 ;;
  P <-- cm_into_edwards (mkP x y) ;;
  ce_mul_by_cofactor (jd J) P.

(** c_eddsaposeidon_verify (circuit/eddsaposeidon.rs:15-45) *)
Definition c_eddsaposeidon_verify (sqrt : F -> option F) {l} (P : @PoseidonParams p) (J : JubJub p l)
    (s r a m : CNum p) : prog p (CBool p) :=
  passert (Nat.ltb (num_bits l) (num_bits p)) ;;;
  p_a <-- ce_subgroup_decompress sqrt J a ;;
  p_r <-- ce_subgroup_decompress sqrt J r ;;
  salt <-- plift (from_seed SEED_EDDSA_POSEIDON) ;;
  h <-- c_poseidon_with_salt P [r; a; m] salt ;;
  h_bits <-- c_into_bits_le_strict h ;;
  ha <-- ce_mul J p_a h_bits ;;
  s_bits <-- c_into_bits_le s (num_bits l) ;;
  let g := cp_from_const (ex (jg J)) (ey (jg J)) in
  sb <-- ce_mul J g s_bits ;;
  ha_plus_r <-- ce_add (jd J) ha p_r ;;
  cis_zero (csub (px ha_plus_r) (px sb)).
End CEcc.
Arguments CPoint : clear implicits.
