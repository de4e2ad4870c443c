(** Calls that fail while a file is encrypted, decrypted or packed. *)
From Coq Require Import List.
From Verif Require Import Bytes Outcome IO IOSpec Primitives Fixtures FS.

(** Calls may fail or be interrupted, but none that succeeds is done in part only. *)
Definition all_or_nothing (s : sys) : Prop := Forall no_short (s_plans s).
(** A directory, or a file opened just now. *)
Definition from_start (e : entry) : Prop :=
  match e with EDir _ => True | EFile h => h_pos h = 0 /\ no_short (h_plan h) end.
(** Readers holding [l] and, for the header, [h], and an empty writer. *)
Definition with_header (l h : bytes) : world := mkWorld (dev_of l) (dev_of nil) (dev_of h) no_rng nil.
