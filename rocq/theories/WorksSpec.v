(** Vocabulary for commands that succeed because nothing is in the way. *)
From Coq Require Import List String NArith.
From Verif Require Import Bytes Outcome Primitives Crypto FS FSSpec Cli CliSpec ChoiceSpec.
Import ListNotations.
Local Open Scope list_scope.

(** The file can be written: there is no such name, but a directory for it, or it is a
    file and overwriting is allowed. *)
Definition free_name (s : sys) (p : path) : Prop :=
  exists q, resolve false s p = Some q /\ lookup (s_nodes s) q = None.
Definition can_write (g : string -> list string) (s : sys) (p : path) : Prop :=
  free_name s p \/ (g "force"%string <> [] /\ exists j, stat s p = Some (NFile j)).

(** The password hash gives a result for this password. *)
Definition hashes (E : env) (k : kdf) (raw : bytes) : Prop :=
  forall salt, kdf_run E k raw salt <> None.
