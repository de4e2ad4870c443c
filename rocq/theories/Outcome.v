(** Results of Rust functions and a state-passing monad.

    [Ok]/[Err] are [Result]; [Panic] is an unwinding panic; [Diverge] marks a
    loop whose fuel ran out and is proved unreachable for every loop of the
    model.  None of this corresponds to code in /repo; it is the meta-language
    in which the functions of /repo are transcribed. *)

Inductive outcome (E A : Type) : Type :=
| Ok (a : A)
| Err (e : E)
| Panic
| Diverge.
Arguments Ok {E A} a.
Arguments Err {E A} e.
Arguments Panic {E A}.
Arguments Diverge {E A}.

(** A computation over mutable state [S] (the [&mut] arguments). *)
Definition M (S E A : Type) : Type := S -> outcome E A * S.

Definition ret {S E A} (a : A) : M S E A := fun s => (Ok a, s).
Definition err {S E A} (e : E) : M S E A := fun s => (Err e, s).
Definition panic {S E A} : M S E A := fun s => (Panic, s).
Definition diverge {S E A} : M S E A := fun s => (Diverge, s).
Definition get {S E} : M S E S := fun s => (Ok s, s).
Definition modify {S E} (f : S -> S) : M S E unit := fun s => (Ok tt, f s).

(** Sequencing with early return on error: the [?] operator. *)
Definition bind {S E A B} (m : M S E A) (k : A -> M S E B) : M S E B :=
  fun s => match m s with
           | (Ok a, s') => k a s'
           | (Err e, s') => (Err e, s')
           | (Panic, s') => (Panic, s')
           | (Diverge, s') => (Diverge, s')
           end.

(** [Result::map_err]. *)
Definition map_err {S E E' A} (f : E -> E') (m : M S E A) : M S E' A :=
  fun s => match m s with
           | (Ok a, s') => (Ok a, s')
           | (Err e, s') => (Err (f e), s')
           | (Panic, s') => (Panic, s')
           | (Diverge, s') => (Diverge, s')
           end.

(** [Result::or_else]: run a handler on an error. *)
Definition or_else {S E E' A} (m : M S E A) (h : E -> M S E' A) : M S E' A :=
  fun s => match m s with
           | (Ok a, s') => (Ok a, s')
           | (Err e, s') => h e s'
           | (Panic, s') => (Panic, s')
           | (Diverge, s') => (Diverge, s')
           end.

(** Run a computation on a component of the state (borrowing one of several
    [&mut] arguments). *)
Definition zoom {S T E A} (getf : S -> T) (setf : T -> S -> S) (m : M T E A)
  : M S E A :=
  fun s => let '(o, t) := m (getf s) in (o, setf t s).

(** Lift a stateless result. *)
Definition lift {S E A} (o : outcome E A) : M S E A := fun s => (o, s).

Definition lift_opt {S E A} (e : E) (o : option A) : M S E A :=
  match o with Some a => ret a | None => err e end.

Declare Scope m_scope.
Delimit Scope m_scope with m.
Notation "x <- m ;; k" := (bind m (fun x => k))
  (at level 61, m at next level, right associativity) : m_scope.
Notation "m ;; k" := (bind m (fun _ => k))
  (at level 61, right associativity) : m_scope.
Open Scope m_scope.
