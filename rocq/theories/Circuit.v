(** Circuit numbers, the constraint-system interface, and the gadgets of
    src/circuit/num.rs and src/circuit/bool.rs.  Model only, no proofs. *)

From Verif Require Export Zp.

(** Index (num.rs:10-14). [usize] is modelled by [nat]. *)
Inductive Index := Input (n : nat) | Aux (n : nat).

(** Ord for Index (num.rs:22-31); PartialEq is derived (num.rs:10). *)
Definition icmp (a b : Index) : comparison :=
  match a, b with
  | Input a, Input b => Nat.compare a b
  | Input _, Aux _ => Lt
  | Aux _, Input _ => Gt
  | Aux a, Aux b => Nat.compare a b
  end.
Definition ieqb (a b : Index) : bool :=
  match a, b with
  | Input a, Input b => Nat.eqb a b
  | Aux a, Aux b => Nat.eqb a b
  | _, _ => false
  end.
Definition igtb (a b : Index) : bool :=
  match icmp a b with Gt => true | _ => false end.

(** The variable that carries the constant one: [Index::Input(0)]. *)
Notation I0 := (Input 0).

Section Circuit.
Context {p : positive}.
Notation F := (Num p).

(** A linked list of terms (num.rs:36). *)
Definition lcT := list (Index * F).

(** CNum (num.rs:33-38) without the reference to the constraint system, which
    is threaded by [prog]. *)
Record CNum := mkC { cvalue : option F; clc : lcT }.

(** A cursor of the linked-list crate sits between two elements: [bef] holds
    the elements before it (nearest first), [aft] those after it. *)

(** ll_lookup (num.rs:279-295); [true] stands for LookupAction::Add. *)
Fixpoint ll_lookup (n : Index) (bef aft : lcT) : lcT * lcT * bool :=
  match aft with
  | [] => (bef, aft, false)
  | (k, v) :: aft' =>
      if ieqb k n then (bef, aft, true)
      else if igtb k n then (bef, aft, false)
      else ll_lookup n ((k, v) :: bef) aft'
  end.

(** One iteration of the loops of add_assign (num.rs:307-317) and sub_assign
    (num.rs:338-348): [g] is += or -=, [f] the sign of an inserted term.
    [Cursor::insert] puts the element after the cursor. *)
Definition merge_step (g : F -> F -> F) (f : F -> F) (cur : lcT * lcT) (kv : Index * F) : lcT * lcT :=
  let '(k, v) := kv in
  match ll_lookup k (fst cur) (snd cur) with
  | (bef, (k', v') :: aft', true) =>
      let t := g v' v in
      if nis_zero t then (bef, aft') else (bef, (k', t) :: aft')
  | (bef, aft, _) => (bef, (k, f v) :: aft)
  end.
Definition merge_lc (g : F -> F -> F) (f : F -> F) (a b : lcT) : lcT :=
  let '(bef, aft) := fold_left (merge_step g f) b ([], a) in rev bef ++ aft.

Definition omap2 (f : F -> F -> F) (a b : option F) : option F :=
  match a, b with Some a, Some b => Some (f a b) | _, _ => None end.

(** AddAssign<&CNum> (num.rs:297-319), which is also [a + &b] (num.rs:390-398). *)
Definition cadd (a b : CNum) : CNum :=
  mkC (omap2 nadd (cvalue a) (cvalue b)) (merge_lc nadd (fun v => v) (clc a) (clc b)).
(** SubAssign<&CNum> (num.rs:328-350); all forms of [-] forward to it without
    swapping (num.rs:400-408, 460; macros.rs:76-130). *)
Definition csub (a b : CNum) : CNum :=
  mkC (omap2 nsub (cvalue a) (cvalue b)) (merge_lc nsub nneg (clc a) (clc b)).
(** capacity (num.rs:149-151). *)
Definition ccap (a : CNum) : nat := length (clc a).
(** [a + b] and [&a + &b] (macros.rs:26-42, 58-74): the longer operand is
    the one modified. *)
Definition cadd_cap (a b : CNum) : CNum :=
  if Nat.leb (ccap b) (ccap a) then cadd a b else cadd b a.
(** [&a + b] (macros.rs:44-56). *)
Definition cadd_rv (a b : CNum) : CNum := cadd b a.

(** Neg (num.rs:258-268). *)
Definition cneg (a : CNum) : CNum :=
  mkC (option_map nneg (cvalue a)) (map (fun kv => (fst kv, nneg (snd kv))) (clc a)).

(** from_const (num.rs:113-118), from_var / derive_var (num.rs:154-163). *)
Definition cconst (v : F) : CNum := mkC (Some v) [(I0, v)].
Definition cvar (v : option F) (i : Index) : CNum := mkC v [(i, n1)].
Definition czero : CNum := cconst n0.   (* zero / derive_zero, num.rs:166-178 *)
Definition cone : CNum := cconst n1.    (* one / derive_one, num.rs:171-183 *)

(** as_const (num.rs:97-110). *)
Definition as_const (a : CNum) : option F :=
  match clc a with
  | [] => Some n0
  | [(k, v)] => if ieqb k I0 then Some v else None
  | _ => None
  end.

(** [CNum + Num] (num.rs:410-418 and 321-326), [CNum - Num] (420-428, 352-357),
    [Num - CNum] (430-437). *)
Definition cadd_num (a : CNum) (c : F) : CNum := cadd a (cconst c).
Definition csub_num (a : CNum) (c : F) : CNum := csub a (cconst c).
Definition num_csub (c : F) (a : CNum) : CNum := csub (cconst c) a.

(** MulAssign<&Num> (num.rs:359-371). *)
Definition cmul_num (a : CNum) (c : F) : CNum :=
  if nis_zero c then czero
  else mkC (option_map (fun v => nmul v c) (cvalue a))
           (map (fun kv => (fst kv, nmul (snd kv) c)) (clc a)).

(** DivAssign<&Num> (num.rs:373-381): Num division panics on a zero divisor. *)
Definition cdiv_num (a : CNum) (c : F) : res CNum :=
  v <-? omapM (fun v => ndiv v c) (cvalue a) ;
  l <-? rmapM (fun kv : Index * F => x <-? ndiv (snd kv) c ; Ok (fst kv, x)) (clc a) ;
  Ok (mkC v l).

(** Programs over the ConstraintSystem trait (core/cs.rs:9-15). The value
    passed to [alloc] and the cached values of the CNums passed to [enforce]
    are visible to the back end. *)
Inductive prog (A : Type) : Type :=
| Ret (a : A)
| PPanic
| Alloc (v : option F) (k : Index -> prog A)
| AllocInput (v : option F) (k : Index -> prog A)
| Enforce (a b c : CNum) (k : prog A).
Arguments Ret {A} a.
Arguments PPanic {A}.
Arguments Alloc {A} v k.
Arguments AllocInput {A} v k.
Arguments Enforce {A} a b c k.

Fixpoint pbind {A B} (m : prog A) (f : A -> prog B) : prog B :=
  match m with
  | Ret a => f a
  | PPanic => PPanic
  | Alloc v k => Alloc v (fun i => pbind (k i) f)
  | AllocInput v k => AllocInput v (fun i => pbind (k i) f)
  | Enforce a b c k => Enforce a b c (pbind k f)
  end.

Definition plift {A} (r : res A) : prog A :=
  match r with Ok a => Ret a | Panic => PPanic end.
Definition enforce (a b c : CNum) : prog unit := Enforce a b c (Ret tt).
Definition passert (b : bool) : prog unit := if b then Ret tt else PPanic.
End Circuit.

Arguments CNum : clear implicits.
Arguments lcT : clear implicits.
Arguments prog : clear implicits.
Arguments Ret {p A} a.
Arguments PPanic {p A}.
Arguments Alloc {p A} v k.
Arguments AllocInput {p A} v k.
Arguments Enforce {p A} a b c k.

Notation "x <-- m ;; k" := (pbind m (fun x => k))
  (at level 61, m at next level, right associativity).
Notation "' pat <-- m ;; k" := (pbind m (fun x => match x with pat => k end))
  (at level 61, pat pattern, m at next level, right associativity).
Notation "m ;;; k" := (pbind m (fun _ => k))
  (at level 61, right associativity).

Fixpoint pmapM {p A B} (f : A -> prog p B) (l : list A) : prog p (list B) :=
  match l with
  | [] => Ret []
  | a :: l' => b <-- f a ;; bs <-- pmapM f l' ;; Ret (b :: bs)
  end.

Fixpoint pfold {p A B} (f : B -> A -> prog p B) (l : list A) (b : B) : prog p B :=
  match l with
  | [] => Ret b
  | a :: l' => b' <-- f b a ;; pfold f l' b'
  end.

Section Gadgets.
Context {p : positive}.
Notation F := (Num p).

(** alloc (num.rs:120-124). *)
Definition calloc (v : option F) : prog p (CNum p) := Alloc v (fun i => Ret (cvar v i)).
Definition calloc_input (v : option F) : prog p (CNum p) := AllocInput v (fun i => Ret (cvar v i)).

(** inputize (num.rs:67-86). *)
Definition cinputize (a : CNum p) : prog p unit :=
  match as_const a with
  | Some v => i <-- calloc_input (Some v) ;; enforce i cone (cconst v)
  | None => i <-- calloc_input (cvalue a) ;; enforce i cone a
  end.

(** MulAssign<&CNum> (num.rs:471-493); all forms of [*] forward to it. *)
Definition cmul (a b : CNum p) : prog p (CNum p) :=
  match as_const a, as_const b with
  | Some ca, _ => Ret (cmul_num b ca)
  | _, Some cb => Ret (cmul_num a cb)
  | _, _ =>
      r <-- calloc (omap2 nmul (cvalue a) (cvalue b)) ;;
      enforce a b r ;;;
      Ret r
  end.
(** square (num.rs:186-188). *)
Definition csquare (a : CNum p) : prog p (CNum p) := cmul a a.

(** The value of a quotient (num.rs:504-507). *)
Definition odiv (a b : option F) : res (option F) :=
  match a, b with
  | Some a, Some b => rmap Some (ndiv a b)
  | _, _ => Ok None
  end.

(** DivAssign<&CNum> (num.rs:495-515). The first branch is as in the code. *)
Definition cdiv (a b : CNum p) : prog p (CNum p) :=
  match as_const a, as_const b with
  | Some ca, _ => plift (cdiv_num b ca)
  | _, Some cb => plift (cdiv_num a cb)
  | _, _ =>
      v <-- plift (odiv (cvalue a) (cvalue b)) ;;
      r <-- calloc v ;;
      enforce r b a ;;;
      Ret r
  end.

(** assert_const (num.rs:126-136), assert_zero (190-192), assert_eq (138-140). *)
Definition cassert_const (a : CNum p) (c : F) : prog p unit :=
  match as_const a with
  | Some v => passert (neqb v c)
  | None => enforce a cone (cconst c)
  end.
Definition cassert_zero (a : CNum p) : prog p unit := cassert_const a n0.
Definition cassert_eq (a b : CNum p) : prog p unit := cassert_zero (csub a b).

(** The witness for an inverse (num.rs:200-209 and 236-245). *)
Definition inv_value (v : option F) : res (option F) :=
  match v with
  | Some t => if nis_zero t then Ok (Some n1) else rmap Some (ninv t)
  | None => Ok None
  end.

(** assert_nonzero (num.rs:194-214). *)
Definition cassert_nonzero (a : CNum p) : prog p unit :=
  match as_const a with
  | Some v => passert (negb (neqb v n0))
  | None =>
      iv <-- plift (inv_value (cvalue a)) ;;
      i <-- calloc iv ;;
      enforce a i cone
  end.

(** assert_bit (num.rs:220-230). *)
Definition cassert_bit (a : CNum p) : prog p unit :=
  match as_const a with
  | Some c => passert (neqb c n1 || neqb c n0)
  | None => enforce a (csub_num a n1) czero
  end.

(** A CBool is a wrapper around a CNum (bool.rs:5-6) and is represented by it. *)
Definition CBool := CNum p.
(** Num::from(bool) (native/num.rs:251-259). *)
Definition nbool (b : bool) : F := if b then n1 else n0.
(** from_const (bool.rs:23-25), c_true / c_false (81-89). *)
Definition cbconst (b : bool) : CBool := cconst (nbool b).

(** Num::into_bool (native/num.rs:141-149): panics unless the number is 0 or 1. *)
Definition ninto_bool (a : F) : res bool :=
  if neqb a n0 then Ok false else if neqb a n1 then Ok true else Panic.

(** as_const / get_value of CBool (bool.rs:27-33). *)
Definition cb_as_const (b : CBool) : res (option bool) := omapM ninto_bool (as_const b).
Definition cb_get_value (b : CBool) : res (option bool) := omapM ninto_bool (cvalue b).

(** CBool::alloc (bool.rs:35-37). *)
Definition cballoc (v : option bool) : prog p CBool := calloc (option_map nbool v).

(** is_zero (num.rs:232-255), is_eq (142-144). *)
Definition cis_zero (a : CNum p) : prog p CBool :=
  match as_const a with
  | Some c => Ret (cbconst (nis_zero c))
  | None =>
      iv <-- plift (inv_value (cvalue a)) ;;
      i <-- calloc iv ;;
      cassert_nonzero i ;;;
      r <-- cmul i a ;;
      cassert_bit r ;;;
      Ret (csub cone r)
  end.
Definition cis_eq (a b : CNum p) : prog p CBool := cis_zero (csub a b).

(** switch (num.rs:48-65; CBool: bool.rs:39-41). [self] is taken when the bit is 1.
    Operand forms: [if_else + (&bit.0 * (..))] is ref + value. *)
Definition cswitch (self : CNum p) (bit : CBool) (if_else : CNum p) : prog p (CNum p) :=
  cb <-- plift (cb_as_const bit) ;;
  match cb with
  | Some true => Ret self
  | Some false => Ret if_else
  | None =>
      if Nat.ltb (ccap if_else) (ccap self) then
        t <-- cmul bit (csub self if_else) ;;
        Ret (cadd_rv if_else t)
      else
        t <-- cmul (num_csub n1 bit) (csub if_else self) ;;
        Ret (cadd_rv self t)
  end.
(** if_else (bool.rs:57-60). *)
Definition cif_else (bit : CBool) (if_true if_false : CNum p) : prog p (CNum p) :=
  cswitch if_true bit if_false.

(** assert (bool.rs:66-69), assert_false / assert_true (71-79). *)
Definition cb_assert (b : CBool) : prog p unit := cassert_bit b.
Definition cb_assert_const (b : CBool) (v : bool) : prog p unit := cassert_const b (nbool v).
Definition cb_assert_false (b : CBool) : prog p unit := cb_assert_const b false.
Definition cb_assert_true (b : CBool) : prog p unit := cb_assert_const b true.
End Gadgets.
Arguments CBool : clear implicits.
