(** Other programs that stay away. *)
From Coq Require Import List String.
From Verif Require Import Bytes Outcome IO FS FSSpec Cli CliSpec Races.
Import ListNotations.
Local Open Scope list_scope.

(** They do nothing. *)
Definition alone (O : others) : Prop :=
  (forall s, o_asking O s = s) /\ (forall s, o_erasing O s = s).

(** The input is a file, and none of those written. *)
Definition input_apart (ts : list path) (input : path) (s : sys) : Prop :=
  exists j, stat s input = Some (NFile j) /\ forall t, In t ts -> stat s t <> Some (NFile j).
(** They leave the files [ts] where they are and as they are, and at [input] they leave
    a file, the same or another one, that is none of [ts]. *)
Definition lets_be (ts : list path) (input : path) (s s' : sys) : Prop :=
  input_apart ts input s'
  /\ forall t, In t ts -> resolve true s' t = resolve true s t
       /\ forall q, resolve true s t = Some q -> at_place s' q = at_place s q.

(** The run of the command up to erasing ended well, in [c1]. *)
Definition ready_to_erase (O : others) (V : cenv) (cmd : command) (g : string -> list string) (c c1 : cli) : Prop :=
  match cmd with
  | CmdEncrypt => encrypt_so_far O V g c = (Ok tt, c1)
  | CmdDecrypt => decrypt_so_far O V g c = (Ok tt, c1)
  | _ => False
  end.
