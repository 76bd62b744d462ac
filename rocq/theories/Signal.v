(** Model of the Signal trait (core/signal.rs) on composite types: SizedVec
    (signal.rs:50-112), tuples (114-166) and derived structs
    (fawkes-crypto_derive/src/signal.rs:108-222).  Model only, no proofs. *)

From Verif Require Export Circuit SizedVec.

(** The types that implement Signal. Tuples, structs with named and with
    unnamed fields are lists of component types: the three implementations
    perform the same calls in the order of the components. The macros need at
    least one component (signal.rs:114, derive/src/signal.rs:169). *)
Inductive sty := TNum | TBool | TVec (L : nat) (t : sty) | TProd (ts : stys)
with stys := TNil | TCons (t : sty) (ts : stys).

Section Signal.
Context {p : positive}.
Notation F := (Num p).

(** The signals of a type and the values of a type (Signal::Value). A vector
    may have another length than its type says, since SizedVec's field is public. *)
Fixpoint sig (t : sty) : Type :=
  match t with
  | TNum => CNum p
  | TBool => CBool p
  | TVec _ t => list (sig t)
  | TProd ts => sigs ts
  end
with sigs (ts : stys) : Type :=
  match ts with TNil => unit | TCons t ts => (sig t * sigs ts)%type end.
Fixpoint val (t : sty) : Type :=
  match t with
  | TNum => F
  | TBool => bool
  | TVec _ t => list (val t)
  | TProd ts => vals ts
  end
with vals (ts : stys) : Type :=
  match ts with TNil => unit | TCons t ts => (val t * vals ts)%type end.

(** [collect] into a SizedVec (sizedvec.rs:40-47) *)
Definition sv_collect {A} (L : nat) (m : prog p (list A)) : prog p (list A) :=
  l <-- m ;; plift (sv_from_iter L l).

(** A loop without a result *)
Definition piter {A} (f : A -> prog p unit) (l : list A) : prog p unit := pfold (fun _ a => f a) l tt.

(** alloc (signal.rs:78-83, 137-142; derive 160-162, 218-220; bool.rs:35-37) *)
Fixpoint s_alloc (t : sty) : option (val t) -> prog p (sig t) :=
  match t with
  | TNum => fun v => calloc v
  | TBool => fun v => cballoc v
  | TVec L t => fun v =>
      match v with
      | Some vs => sv_collect L (pmapM (fun v => s_alloc t (Some v)) vs)
      | None => sv_collect L (pmapM (fun _ => s_alloc t None) (seq 0 L))
      end
  | TProd ts => fun v => s_allocs ts v
  end
with s_allocs (ts : stys) : option (vals ts) -> prog p (sigs ts) :=
  match ts with
  | TNil => fun _ => Ret tt
  | TCons t ts => fun v =>
      x <-- s_alloc t (option_map fst v) ;; xs <-- s_allocs ts (option_map snd v) ;; Ret (x, xs)
  end.

(** from_const (signal.rs:70-72, 129-131; derive 132-134, 190-192; bool.rs:23-25) *)
Fixpoint s_from_const (t : sty) : val t -> res (sig t) :=
  match t with
  | TNum => fun v => Ok (cconst v)
  | TBool => fun v => Ok (cbconst v)
  | TVec L t => fun vs => l <-? rmapM (s_from_const t) vs ; sv_from_iter L l
  | TProd ts => fun v => s_from_consts ts v
  end
with s_from_consts (ts : stys) : vals ts -> res (sigs ts) :=
  match ts with
  | TNil => fun _ => Ok tt
  | TCons t ts => fun v => x <-? s_from_const t (fst v) ; xs <-? s_from_consts ts (snd v) ; Ok (x, xs)
  end.

(** Collecting Options: stops at the first None; what was collected then goes to
    from_iter, whose result is dropped (see sv_collect_option in SizedVec.v). *)
Fixpoint ocollect {A B} (g : A -> res (option B)) (l : list A) : res (list B * bool) :=
  match l with
  | [] => Ok ([], true)
  | a :: l =>
      o <-? g a ;
      match o with
      | None => Ok ([], false)
      | Some b => r <-? ocollect g l ; Ok (b :: fst r, snd r)
      end
  end.

(** get_value (signal.rs:55-57, 118-120; derive 118-120, 176-178; num.rs:44-46,
    bool.rs:27-29) and as_const (74-76, 133-135; 122-124, 180-182; num.rs:97-110,
    bool.rs:31-33): [f] is the function on CNum. *)
Fixpoint s_get (f : CNum p -> option F) (t : sty) : sig t -> res (option (val t)) :=
  match t with
  | TNum => fun x => Ok (f x)
  | TBool => fun x => omapM ninto_bool (f x)
  | TVec L t => fun l =>
      r <-? ocollect (s_get f t) l ; s <-? sv_from_iter L (fst r) ;
      Ok (if snd r then Some s else None)
  | TProd ts => fun x => s_gets f ts x
  end
with s_gets (f : CNum p -> option F) (ts : stys) : sigs ts -> res (option (vals ts)) :=
  match ts with
  | TNil => fun _ => Ok (Some tt)
  | TCons t ts => fun x =>
      a <-? s_get f t (fst x) ;
      match a with
      | None => Ok None
      | Some a => b <-? s_gets f ts (snd x) ; Ok (option_map (fun b => (a, b)) b)
      end
  end.
Definition s_get_value := s_get cvalue.
Definition s_as_const := s_get as_const.

(** get_cs (signal.rs:66-68, 125-127; derive 130, 188): panics on an empty vector *)
Fixpoint s_get_cs (t : sty) : sig t -> res unit :=
  match t with
  | TNum | TBool => fun _ => Ok tt
  | TVec _ t => fun l => x <-? sv_index l 0 ; s_get_cs t x
  | TProd ts => fun x => s_get_css ts x
  end
with s_get_css (ts : stys) : sigs ts -> res unit :=
  match ts with
  | TNil => fun _ => Panic
  | TCons t _ => fun x => s_get_cs t (fst x)
  end.

(** switch (signal.rs:59-64, 122-124; derive 126-128, 184-186; bool.rs:39-41) *)
Fixpoint s_switch (t : sty) : sig t -> CBool p -> sig t -> prog p (sig t) :=
  match t with
  | TNum | TBool => fun x bit y => cswitch x bit y
  | TVec L t => fun l bit m => sv_collect L (pmapM (fun xy => s_switch t (fst xy) bit (snd xy)) (combine l m))
  | TProd ts => fun x bit y => s_switchs ts x bit y
  end
with s_switchs (ts : stys) : sigs ts -> CBool p -> sigs ts -> prog p (sigs ts) :=
  match ts with
  | TNil => fun _ _ _ => Ret tt
  | TCons t ts => fun x bit y =>
      a <-- s_switch t (fst x) bit (fst y) ;; b <-- s_switchs ts (snd x) bit (snd y) ;; Ret (a, b)
  end.
(** if_else (bool.rs:57-60) *)
Definition s_if_else (t : sty) (bit : CBool p) (x y : sig t) : prog p (sig t) := s_switch t x bit y.

(** assert_const (signal.rs:85-89, 144-146; derive 136-138, 194-196; bool.rs:43-45) *)
Fixpoint s_assert_const (t : sty) : sig t -> val t -> prog p unit :=
  match t with
  | TNum => fun x v => cassert_const x v
  | TBool => fun x v => cb_assert_const x v
  | TVec _ t => fun l vs => piter (fun xv => s_assert_const t (fst xv) (snd xv)) (combine l vs)
  | TProd ts => fun x v => s_assert_consts ts x v
  end
with s_assert_consts (ts : stys) : sigs ts -> vals ts -> prog p unit :=
  match ts with
  | TNil => fun _ _ => Ret tt
  | TCons t ts => fun x v => s_assert_const t (fst x) (fst v) ;;; s_assert_consts ts (snd x) (snd v)
  end.

(** assert_eq (signal.rs:95-99, 152-154; derive 148-150, 206-208; bool.rs:47-49) *)
Fixpoint s_assert_eq (t : sty) : sig t -> sig t -> prog p unit :=
  match t with
  | TNum | TBool => fun x y => cassert_eq x y
  | TVec _ t => fun l m => piter (fun xy => s_assert_eq t (fst xy) (snd xy)) (combine l m)
  | TProd ts => fun x y => s_assert_eqs ts x y
  end
with s_assert_eqs (ts : stys) : sigs ts -> sigs ts -> prog p unit :=
  match ts with
  | TNil => fun _ _ => Ret tt
  | TCons t ts => fun x y => s_assert_eq t (fst x) (fst y) ;;; s_assert_eqs ts (snd x) (snd y)
  end.

(** inputize (signal.rs:91-93, 148-150; derive 140-142, 198-200; bool.rs:15-17) *)
Fixpoint s_inputize (t : sty) : sig t -> prog p unit :=
  match t with
  | TNum | TBool => fun x => cinputize x
  | TVec _ t => fun l => piter (s_inputize t) l
  | TProd ts => fun x => s_inputizes ts x
  end
with s_inputizes (ts : stys) : sigs ts -> prog p unit :=
  match ts with
  | TNil => fun _ => Ret tt
  | TCons t ts => fun x => s_inputize t (fst x) ;;; s_inputizes ts (snd x)
  end.

(** is_eq (signal.rs:101-107, 156-160; derive 152-156, 210-214; bool.rs:51-53).
    The loop over a vector goes by the length in the type. *)
Fixpoint s_is_eq (t : sty) : sig t -> sig t -> prog p (CBool p) :=
  match t with
  | TNum | TBool => fun x y => cis_eq x y
  | TVec L t => fun l m =>
      plift (s_get_cs (TVec L t) l) ;;;
      pfold (fun acc i =>
        x <-- plift (sv_index l i) ;; y <-- plift (sv_index m i) ;;
        e <-- s_is_eq t x y ;; cmul acc e) (seq 0 L) cone
  | TProd ts => fun x y => plift (s_get_css ts x) ;;; s_is_eqs ts x y cone
  end
with s_is_eqs (ts : stys) : sigs ts -> sigs ts -> CNum p -> prog p (CBool p) :=
  match ts with
  | TNil => fun _ _ acc => Ret acc
  | TCons t ts => fun x y acc =>
      e <-- s_is_eq t (fst x) (fst y) ;; acc <-- cmul acc e ;; s_is_eqs ts (snd x) (snd y) acc
  end.

(** linearize_builder (signal.rs:109-111, 162-164; derive 144-146, 202-204;
    num.rs:88-91, bool.rs:19-21) and linearize (33-37) *)
Fixpoint s_linearize_builder (t : sty) : sig t -> list (CNum p) -> list (CNum p) :=
  match t with
  | TNum | TBool => fun x acc => acc ++ [x]
  | TVec _ t => fun l acc => fold_left (fun acc x => s_linearize_builder t x acc) l acc
  | TProd ts => fun x acc => s_linearize_builders ts x acc
  end
with s_linearize_builders (ts : stys) : sigs ts -> list (CNum p) -> list (CNum p) :=
  match ts with
  | TNil => fun _ acc => acc
  | TCons t ts => fun x acc => s_linearize_builders ts (snd x) (s_linearize_builder t (fst x) acc)
  end.
Definition s_linearize (t : sty) (x : sig t) : list (CNum p) := s_linearize_builder t x [].

(** derive_const, derive_alloc (signal.rs:39-47), called on a signal of type [t'] *)
Definition s_derive_const (t' t : sty) (x : sig t') (v : val t) : res (sig t) :=
  _ <-? s_get_cs t' x ; s_from_const t v.
Definition s_derive_alloc (t' t : sty) (x : sig t') (v : option (val t)) : prog p (sig t) :=
  plift (s_get_cs t' x) ;;; s_alloc t v.
End Signal.
Arguments sig p t : clear implicits.
Arguments sigs p ts : clear implicits.
Arguments val p t : clear implicits.
Arguments vals p ts : clear implicits.

(** The derived Signals of the library: CEdwardsPoint (circuit/ecc.rs:15-20),
    CMontgomeryPoint (22-27), CMerkleProof (circuit/poseidon.rs:14-19). *)
Definition t_point : sty := TProd (TCons TNum (TCons TNum TNil)).
Definition t_merkle (L : nat) : sty := TProd (TCons (TVec L TNum) (TCons (TVec L TBool) TNil)).
