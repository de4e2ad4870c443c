(** When a text tells which error it stands for. *)
From Coq Require Import List String.
From Verif Require Import Bytes Outcome EncDec Hash Archive Cli CliTools.

Definition tells_which {E T} (text : E -> T) : Prop := forall e e', text e = text e' -> e = e'.

(** A run of the command can end in the error. *)
Definition can_end (cmd : command) (e : cli_error) : Prop :=
  exists V given c c', run_command V cmd given c = (Err e, c').

(** The pairs of errors of one command that its text does not tell apart: the first
    comes from making the output, the second from hashing it when it is complete. *)
Inductive mistaken : command -> cli_error -> cli_error -> Prop :=
| MistakenEncrypt : mistaken CmdEncrypt (CEncrypt EncResetCursorPosition) (CHash HashResetCursorPosition)
| MistakenPack : mistaken CmdPack (CPack PkReadData) (CHash HashReadData).
