(** Model of core/sizedvec.rs.  A SizedVec<T, L> is a vector tagged with a length;
    the tag is the argument [L] of the functions that look at it. *)

From Verif Require Export Res.
From Coq Require Export List Arith.
Export ListNotations.

(** FromIterator (sizedvec.rs:40-47): collect and check the length *)
Definition sv_from_iter {T} (L : nat) (items : list T) : res (list T) :=
  _ <-? rassert (Nat.eqb (length items) L) ; Ok items.

(** Serialize and Deserialize (sizedvec.rs:28-38) delegate to Vec; [ser] and [de]
    are serde's for Vec<T> in some format. *)
Definition sv_serialize {T} (L : nat) {S} (ser : list T -> S) (v : list T) : S := ser v.
Definition sv_deserialize {T} (L : nat) {S} (de : S -> option (list T)) (s : S) : option (list T) :=
  option_map (fun v => v) (de s).

(** Index with a number (sizedvec.rs:49-56) *)
Definition sv_index {T} (v : list T) (i : nat) : res T := unwrap (nth_error v i).

(** collect::<Option<SizedVec>>() as used by signal.rs:55-57, 74-76: the items up
    to the first None go to from_iter, whose result is dropped if there was a None *)
Fixpoint until_none {T} (l : list (option T)) : list T * bool :=
  match l with
  | Some x :: t => let '(v, ok) := until_none t in (x :: v, ok)
  | None :: _ => ([], false)
  | [] => ([], true)
  end.
Definition sv_collect_option {T} (L : nat) (l : list (option T)) : res (option (list T)) :=
  let '(v, ok) := until_none l in
  s <-? sv_from_iter L v ; Ok (if ok then Some s else None).
