(** Panicking computations.

    Rust code in /repo panics through [unwrap], [expect], [assert!] and slice
    indexing.  A panic is the explicit value [Panic]; there is no unwinding
    in the library, so nothing observes a panic from inside. *)

Inductive res (A : Type) : Type :=
| Ok (a : A)
| Panic.
Arguments Ok {A} a.
Arguments Panic {A}.

Definition rbind {A B} (m : res A) (f : A -> res B) : res B :=
  match m with Ok a => f a | Panic => Panic end.

Definition rmap {A B} (f : A -> B) (m : res A) : res B :=
  match m with Ok a => Ok (f a) | Panic => Panic end.

Notation "x <-? m ; k" := (rbind m (fun x => k))
  (at level 60, m at next level, right associativity).

(** [Option::unwrap] / [expect]. *)
Definition unwrap {A} (o : option A) : res A :=
  match o with Some a => Ok a | None => Panic end.

(** [assert!]. *)
Definition rassert (b : bool) : res unit := if b then Ok tt else Panic.

(** [Option::map] with a closure that may panic. *)
Definition omapM {A B} (f : A -> res B) (o : option A) : res (option B) :=
  match o with
  | Some a => rmap Some (f a)
  | None => Ok None
  end.

Fixpoint rmapM {A B} (f : A -> res B) (l : list A) : res (list B) :=
  match l with
  | nil => Ok nil
  | cons a l' => b <-? f a ; bs <-? rmapM f l' ; Ok (cons b bs)
  end.

Lemma rbind_ok {A B} (m : res A) (f : A -> res B) b :
  rbind m f = Ok b -> exists a, m = Ok a /\ f a = Ok b.
Proof. destruct m; cbn; intros H; [eauto | discriminate]. Qed.
