(** Native Edwards and Montgomery points: src/native/ecc.rs. Model only.

    [sqrt] is the square root of the ff crate ([Field::sqrt], num.rs:77-80); it
    is external, so the functions that use it take it as an argument. *)

From Verif Require Export NumBits.
Open Scope num_scope.

(** ecc.rs:18-23, 25-30, 10-16 *)
Record EPoint (p : positive) := mkE { ex : Num p; ey : Num p }.
Arguments mkE {p}. Arguments ex {p}. Arguments ey {p}.
Record MPoint (p : positive) := mkM { mx : Num p; my : Num p }.
Arguments mkM {p}. Arguments mx {p}. Arguments my {p}.
Record XPoint (p : positive) := mkX { xx : Num p; xy : Num p; xt : Num p; xz : Num p }.
Arguments mkX {p}. Arguments xx {p}. Arguments xy {p}. Arguments xt {p}. Arguments xz {p}.

(** Trait JubJubParams (ecc.rs:32-45). [p] is the modulus of Fr, [l] of Fs. *)
Record JubJub (p l : positive) := mkJ { jg : EPoint p; jd : Num p; ja : Num p; jb : Num p; ju : Num p }.
Arguments mkJ {p l}. Arguments jg {p l}. Arguments jd {p l}. Arguments ja {p l}. Arguments jb {p l}. Arguments ju {p l}.

(** BitIterator of the ff crate over a limb slice: from bit 64 n - 1 down to 0. *)
Definition bititer_be (t : list Z) : list bool :=
  map (fun i => Z.testbit (nth (i / 64) t 0%Z) (Z.of_nat (i mod 64))) (rev (seq 0 (64 * length t))).

Section Ecc.
Context {p : positive}.
Notation F := (Num p).

(** derived PartialEq of EdwardsPoint (ecc.rs:18) *)
Definition e_eqb (P Q : EPoint p) : bool := neqb (ex P) (ex Q) && neqb (ey P) (ey Q).
(** PartialEq of EdwardsPointEx (ecc.rs:47-51) *)
Definition x_eqb (P Q : XPoint p) : bool :=
  neqb (xx P * xz Q) (xx Q * xz P) && neqb (xy P * xz Q) (xy Q * xz P).

(** EdwardsPoint::into_extended (ecc.rs:203-213) *)
Definition e_into_extended (P : EPoint p) : XPoint p := mkX (ex P) (ey P) (ex P * ey P) 1.
(** EdwardsPointEx::into_affine (ecc.rs:252-258) *)
Definition x_into_affine (P : XPoint p) : res (EPoint p) :=
  zinv <-? ninv (xz P) ; Ok (mkE (xx P * zinv) (xy P * zinv)).
(** zero (ecc.rs:145-150, 269-276), is_zero (152-154, 265-267) *)
Definition e_zero : EPoint p := mkE 0 1.
Definition e_is_zero (P : EPoint p) : bool := e_eqb P e_zero.
Definition x_zero : XPoint p := mkX 0 1 0 1.
Definition x_is_zero (P : XPoint p) : bool := nis_zero (xx P) && neqb (xy P) (xz P).
(** negate (ecc.rs:278-283) *)
Definition x_negate (P : XPoint p) : XPoint p := mkX (- xx P) (xy P) (- xt P) (xz P).
(** double (ecc.rs:285-310) *)
Definition x_double (P : XPoint p) : XPoint p :=
  let a := nsquare (xx P) in
  let b := nsquare (xy P) in
  let c := ndouble (nsquare (xz P)) in
  let d := - a in
  let e := nsquare (xx P + xy P) - a - b in
  let g := d + b in
  let f := g - c in
  let h := d - b in
  mkX (e * f) (g * h) (e * h) (f * g).
(** add (ecc.rs:312-336); [dd] is params.edwards_d() *)
Definition x_add (dd : F) (P Q : XPoint p) : XPoint p :=
  let a := xx P * xx Q in
  let b := xy P * xy Q in
  let c := dd * xt P * xt Q in
  let d := xz P * xz Q in
  let h := b + a in
  let e := (xx P + xy P) * (xx Q + xy Q) - h in
  let f := d - c in
  let g := d + c in
  mkX (e * f) (g * h) (e * h) (f * g).
(** mul_by_cofactor (ecc.rs:247-250) *)
Definition x_mul_by_cofactor (P : XPoint p) : XPoint p := x_double (x_double (x_double P)).
(** is_in_curve (ecc.rs:235-245) *)
Definition x_is_in_curve (dd : F) (P : XPoint p) : bool :=
  negb (nis_zero (xz P)) && neqb (xz P * xt P) (xx P * xy P) &&
  neqb (nsquare (xy P) - nsquare (xx P)) (nsquare (xz P) + dd * nsquare (xt P)).
(** mul_raw (ecc.rs:342-355) over the limbs of the scalar *)
Definition x_mul_bits (dd : F) (P : XPoint p) (bits : list bool) : XPoint p :=
  fold_left (fun r (b : bool) => let r := x_double r in if b then x_add dd r P else r) bits x_zero.
Definition x_mul_raw (dd : F) (P : XPoint p) (scalar : list Z) : XPoint p :=
  x_mul_bits dd P (bititer_be scalar).
(** mul (ecc.rs:357-359) *)
Definition x_mul {l} (dd : F) (P : XPoint p) (scalar : Num l) : XPoint p :=
  x_mul_raw dd P (into_repr scalar).
(** is_in_subgroup (ecc.rs:338-340) *)
Definition x_is_in_subgroup (l : positive) (dd : F) (P : XPoint p) : bool :=
  x_is_zero (x_mul_raw dd P (char_repr l)).

(** EdwardsPoint::{mul,add,double,mul_by_cofactor} (ecc.rs:156-172) *)
Definition e_mul {l} (dd : F) (P : EPoint p) (scalar : Num l) : res (EPoint p) :=
  x_into_affine (x_mul dd (e_into_extended P) scalar).
Definition e_add (dd : F) (P Q : EPoint p) : res (EPoint p) :=
  x_into_affine (x_add dd (e_into_extended P) (e_into_extended Q)).
Definition e_double (P : EPoint p) : res (EPoint p) := x_into_affine (x_double (e_into_extended P)).
Definition e_mul_by_cofactor (P : EPoint p) : res (EPoint p) :=
  x_into_affine (x_mul_by_cofactor (e_into_extended P)).
(** is_in_curve (ecc.rs:174-181) *)
Definition e_is_in_curve (dd : F) (P : EPoint p) : bool :=
  let x2 := nsquare (ex P) in
  let y2 := nsquare (ey P) in
  neqb (y2 - x2) (1 + dd * x2 * y2).

(** into_montgomery (ecc.rs:183-201, 260-262) *)
Definition e_into_montgomery (P : EPoint p) : res (option (MPoint p)) :=
  if nis_zero (ex P) then
    if neqb (ey P) 1 then Ok None else Ok (Some (mkM 0 0))
  else
    m_x <-? ndiv (1 + ey P) (1 - ey P) ;
    m_y <-? ndiv m_x (ex P) ;
    Ok (Some (mkM m_x m_y)).
Definition x_into_montgomery (P : XPoint p) : res (option (MPoint p)) :=
  a <-? x_into_affine P ; e_into_montgomery a.
(** MontgomeryPoint::into_affine, into_extended (ecc.rs:217-232) *)
Definition m_into_affine (P : MPoint p) : res (EPoint p) :=
  if nis_zero (mx P) then Ok (mkE 0 (- (1)))
  else
    e_x <-? ndiv (mx P) (my P) ;
    e_y <-? ndiv (mx P - 1) (mx P + 1) ;
    Ok (mkE e_x e_y).
Definition m_into_extended (P : MPoint p) : res (XPoint p) :=
  a <-? m_into_affine P ; Ok (e_into_extended a).

Section Sqrt.
Variable sqrt : F -> option F.

(** get_for_y (ecc.rs:54-66) *)
Definition get_for_y (dd : F) (y : F) (sign : bool) : res (option (EPoint p)) :=
  let y2 := nsquare y in
  q <-? ndiv (y2 - 1) (dd * y2 + 1) ;
  Ok (match sqrt q with
      | Some x => Some (if negb (Bool.eqb (Z.odd (nval x)) sign) then mkE (- x) y else mkE x y)
      | None => None
      end).

(** subgroup_decompress (ecc.rs:68-89) *)
Definition subgroup_decompress (l : positive) (dd : F) (x : F) : res (option (EPoint p)) :=
  let x2 := nsquare x in
  q <-? ndiv (x2 + 1) (1 - dd * x2) ;
  match sqrt q with
  | Some y =>
      lp <-? x_into_affine (x_mul_raw dd (e_into_extended (mkE x y)) (char_repr l)) ;
      Ok (if nis_zero (ex lp) then
            if neqb (ey lp) 1 then Some (mkE x y) else Some (mkE x (- y))
          else None)
  | None => Ok None
  end.

(** from_scalar_raw (ecc.rs:99-135) with its local functions *)
Definition mont_g (x a b : F) : res F := ndiv (nsquare x * (x + a) + x) b.
Definition filter_even (x : F) : F := if Z.even (nval x) then x else - x.
Definition from_scalar_raw (t a b u : F) : res (EPoint p) :=
  let t := t + 1 in
  let t2g1 := nsquare t * u in
  m1a <-? ndiv (- (1)) a ;
  ti <-? ninv t2g1 ;
  let x2 := m1a * (1 + ti) in
  g2 <-? mont_g x2 a b ;
  mp <-? (match sqrt g2 with
          | Some y2 => Ok (mkM x2 (filter_even y2))
          | None =>
              let x3 := x2 * t2g1 in
              g3 <-? mont_g x3 a b ;
              y3 <-? unwrap (sqrt g3) ;
              Ok (mkM x3 (filter_even y3))
          end) ;
  e <-? m_into_extended mp ;
  x_into_affine (x_mul_by_cofactor e).
(** from_scalar (ecc.rs:138-145) *)
Definition from_scalar {l} (J : JubJub p l) (t : F) : res (EPoint p) :=
  from_scalar_raw t (ja J) (jb J) (ju J).

(** rand (ecc.rs:91-97): [draws] is the stream of (y, sign) the generator yields;
    [None] when none of them gives a point (the loop goes on). *)
Fixpoint e_rand (dd : F) (draws : list (F * bool)) : res (option (EPoint p)) :=
  match draws with
  | [] => Ok None
  | (y, sign) :: rest =>
      r <-? get_for_y dd y sign ;
      match r with Some P => Ok (Some P) | None => e_rand dd rest end
  end.
End Sqrt.
End Ecc.
