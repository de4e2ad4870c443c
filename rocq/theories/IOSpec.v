(** Specification vocabulary for devices. *)
From Coq Require Import List Arith.
From Verif Require Import Bytes IO.
Local Open Scope nat_scope.

(** The log of consecutive writes [cs] starting at offset [p]. *)
Fixpoint chunk_log (p : nat) (cs : list bytes) : list (nat * bytes) :=
  match cs with
  | [] => []
  | c :: cs' => (p, c) :: chunk_log (p + length c) cs'
  end.

(** [d'] is [d] after writing exactly [l] at the cursor, in some number of
    consecutive non-empty pieces. *)
Definition wrote (d d' : dev) (l : bytes) : Prop :=
  d_data d' = write_at (d_data d) (d_pos d) l
  /\ d_pos d' = d_pos d + length l
  /\ exists cs, concat cs = l /\ Forall (fun c => c <> []) cs
       /\ d_log d' = d_log d ++ chunk_log (d_pos d) cs.

(** The device never transfers less than it could (it may fail or be
    interrupted). *)
Definition no_short (plan : list ev) : Prop := forall k, ~ In (EvShort k) plan.

(** What a reader would still deliver. *)
Definition rest (d : dev) : bytes := skipn (d_pos d) (d_data d).

(** The bytes consumed between two states of a reader. *)
Definition consumed (d d' : dev) : bytes := firstn (d_pos d' - d_pos d) (rest d).
