(** Two runs of "pack" with the same message. *)
From Coq Require Import List ZArith String.
From Verif Require Import Bytes Outcome IO EncDec Hash FS Erase Archive Cli FSSpec ArchiveSpec EraseCases CliSpec CliCases PackPathCases CrashCases.
From Verif Require Import Messages MessageSpec.
Import ListNotations.
Local Open Scope list_scope.

(** "volaris pack -f --hash -k k d ./e out": of the files opened, all but one behave. *)
Definition packing3 : list (string * list string) :=
  [("input", ["d"; "./e"]); ("output", ["out"]); ("keyfile", ["k"]); ("force", [""]); ("hash", [""])]%string.
Definition flaky (n : nat) (es : list ev) : cli :=
  mkCli (mkSys (s_nodes home2) (s_data home2) (s_next home2) (s_cwd home2) (s_tmp home2) []
               (repeat [] n ++ [es]) noise [], []) [] [] [].
(** A file to pack cannot be read ... *)
Definition unread : cli := flaky 3 [EvFail].
(** ... or the output cannot be read when it is hashed. *)
Definition unhashed : cli := flaky 5 [EvFull; EvFail].

Lemma same_line :
  outcome_of Vt CmdPack packing3 unread = Err (CPack PkReadData)
  /\ outcome_of Vt CmdPack packing3 unhashed = Err (CHash HashReadData)
  /\ error_line (CPack PkReadData) = Some "Error: Unable to read data"%string
  /\ error_line (CHash HashReadData) = Some "Error: Unable to read data"%string.
Proof. split; [|split; [|split]]; vm_compute; reflexivity. Qed.
(** The first leaves nothing in the output, the second what a run without a fault
    leaves there. *)
Definition output_of (c : cli) : option bytes :=
  match at_place (disk (after Vt CmdPack packing3 c)) ["home"; "out"]%string with Some (SFile _ l) => Some l | _ => None end.
Lemma different_output :
  output_of unread = Some [] /\ output_of unhashed = output_of start2
  /\ outcome_of Vt CmdPack packing3 start2 = Ok tt /\ output_of start2 <> Some [].
Proof.
  split; [vm_compute; reflexivity|]. split; [vm_compute; reflexivity|]. split; [vm_compute; reflexivity|].
  vm_compute. discriminate.
Qed.

Lemma pack_mistaken :
  exists e e' t, can_end CmdPack e /\ can_end CmdPack e' /\ error_line e = Some t /\ error_line e' = Some t /\ e <> e'.
Proof.
  destruct same_line as (A & B & C & D).
  exists (CPack PkReadData), (CHash HashReadData), "Error: Unable to read data"%string.
  split; [exists Vt, (args packing3), unread, (after Vt CmdPack packing3 unread); apply ran; exact A|].
  split; [exists Vt, (args packing3), unhashed, (after Vt CmdPack packing3 unhashed); apply ran; exact B|].
  split; [exact C|]. split; [exact D|]. discriminate.
Qed.

(** "volaris encrypt -f --hash -k k a out", likewise. *)
Definition encrypting3 : list (string * list string) :=
  [("input", ["a"]); ("output", ["out"]); ("keyfile", ["k"]); ("force", [""]); ("hash", [""])]%string.
Definition flaky1 (n : nat) (es : list ev) : cli :=
  mkCli (mkSys (s_nodes home) (s_data home) (s_next home) (s_cwd home) (s_tmp home) []
               (repeat [] n ++ [es]) noise [], []) [] [] [].
Lemma same_line_encrypt :
  outcome_of Vt CmdEncrypt encrypting3 (flaky1 2 [EvFail]) = Err (CEncrypt EncResetCursorPosition)
  /\ outcome_of Vt CmdEncrypt encrypting3 (flaky1 3 [EvFail]) = Err (CHash HashResetCursorPosition)
  /\ error_line (CEncrypt EncResetCursorPosition) = Some "Error: Unable to reset cursor position"%string
  /\ error_line (CHash HashResetCursorPosition) = Some "Error: Unable to reset cursor position"%string.
Proof. split; [|split; [|split]]; vm_compute; reflexivity. Qed.
