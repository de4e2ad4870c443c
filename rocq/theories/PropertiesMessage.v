(** Property C109. *)
From Coq Require Import List String.
From Verif Require Import Bytes Outcome EncDec KeyOps HeaderOps Overwrite Hash FS Erase Archive Cli CliTools.
From Verif Require Import CliCases PackPathCases CrashCases Messages MessageSpec MessageProofs MessageCases.
Import ListNotations.
Local Open Scope string_scope.

(** C109: the text of an error of an operation of the library tells which error it is,
    also when it holds the text of another. *)
Theorem C109_library :
  tells_which enc_text /\ tells_which dec_text /\ tells_which key_text /\ tells_which hop_text
  /\ tells_which st_text /\ tells_which ow_text /\ tells_which erase_text /\ tells_which erase_dir_text
  /\ tells_which hash_text /\ tells_which pack_text /\ tells_which unpack_text.
Proof.
  exact (conj enc_tells (conj dec_tells (conj key_tells (conj hop_tells (conj st_tells (conj ow_tells
          (conj erase_tells (conj erase_dir_tells (conj hash_tells (conj pack_tells unpack_tells)))))))))).
Qed.
Print Assumptions C109_library.

(** Of a command it does not: the same line stands for two errors, of which one leaves
    no output and the other a complete one. *)
Theorem C109_message_tells_refuted :
  exists e e' t, can_end CmdPack e /\ can_end CmdPack e'
    /\ error_line e = Some t /\ error_line e' = Some t /\ e <> e'.
Proof. exact pack_mistaken. Qed.
Print Assumptions C109_message_tells_refuted.

Example C109_refuted_case :
  outcome_of Vt CmdPack packing3 unread = Err (CPack PkReadData)
  /\ outcome_of Vt CmdPack packing3 unhashed = Err (CHash HashReadData)
  /\ error_line (CPack PkReadData) = Some "Error: Unable to read data"
  /\ error_line (CHash HashReadData) = Some "Error: Unable to read data".
Proof. exact same_line. Qed.
Example C109_refuted_case_output :
  output_of unread = Some [] /\ output_of unhashed = output_of start2
  /\ outcome_of Vt CmdPack packing3 start2 = Ok tt /\ output_of start2 <> Some [].
Proof. exact different_output. Qed.
Example C109_refuted_case_encrypt :
  outcome_of Vt CmdEncrypt encrypting3 (flaky1 2 [IO.EvFail]) = Err (CEncrypt EncResetCursorPosition)
  /\ outcome_of Vt CmdEncrypt encrypting3 (flaky1 3 [IO.EvFail]) = Err (CHash HashResetCursorPosition)
  /\ error_line (CEncrypt EncResetCursorPosition) = Some "Error: Unable to reset cursor position"
  /\ error_line (CHash HashResetCursorPosition) = Some "Error: Unable to reset cursor position".
Proof. exact same_line_encrypt. Qed.

(** These are the only errors of one command that share a text. *)
Theorem C109_message_tells_partial : forall cmd e e' t, can_end cmd e -> can_end cmd e' ->
  error_line e = Some t -> error_line e' = Some t ->
  e = e' \/ mistaken cmd e e' \/ mistaken cmd e' e.
Proof. exact command_tells. Qed.
Print Assumptions C109_message_tells_partial.

Example C109_case : can_end CmdPack (CPack PkReadData) /\ can_end CmdPack (CHash HashReadData)
  /\ mistaken CmdPack (CPack PkReadData) (CHash HashReadData).
Proof.
  exact (conj (ex_intro _ Vt (ex_intro _ (args packing3) (ex_intro _ unread (ex_intro _ _
                (ran Vt CmdPack packing3 unread _ (proj1 same_line))))))
        (conj (ex_intro _ Vt (ex_intro _ (args packing3) (ex_intro _ unhashed (ex_intro _ _
                (ran Vt CmdPack packing3 unhashed _ (proj1 (proj2 same_line)))))))
              MistakenPack)).
Qed.
