(** C118, continued: the hash that --hash shows. *)
From Coq Require Import List Arith NArith ZArith Ascii String Bool Lia.
From Verif Require Import Bytes Outcome IO Primitives Crypto Header Stream KeyModel EncDec.
From Verif Require Import Overwrite Hash FS Erase Archive Cli.
From Verif Require Import IOSpec ToyEnv Fixtures FileCases EraseCases FSSpec ArchiveSpec CliSpec CliCases.
From Verif Require Import PrintSpec ReportSpec ArchiveCases FaultsSpec FaultsCases FaultsShown FaultsShownCases.
Import ListNotations.
Local Open Scope nat_scope.
Local Open Scope string_scope.
Local Open Scope list_scope.

(** One short read: encrypt shows a hash that is not that of the file it leaves, and reports
    success. *)
Theorem C118_shown_cut_refuted : exists V g c c' output q j ct h, inodes_ok (disk c) /\ s_faults (disk c) = []
  /\ (exists k, s_plans (disk c) = [[]; []; []; [EvFull; EvShort k]])
  /\ given g "output" output /\ run_command V CmdEncrypt g c = (Ok tt, c')
  /\ resolve true (disk c) (os_path output) = Some q /\ at_place (disk c') q = Some (SFile j ct)
  /\ c_out c' = c_out c ++ [NHash output h] /\ h <> hex_encode (ce_blake3 V ct).
Proof. exact shown_cut. Qed.
Print Assumptions C118_shown_cut_refuted.

(** What holds, however calls fail and are interrupted, if those that succeed are not done in
    part: encrypt shows no hash, and then does not report success if it was asked for one, or
    that of the output as it is left at the end of the run, also if erasing fails. *)
Theorem C118_encrypt_shown_partial : forall V g c o c' input output i ns,
  all_or_nothing (disk c) -> inodes_ok (disk c) ->
  given g "input" input -> given g "output" output ->
  stat (disk c) (os_path input) = Some (NFile i) ->
  (forall t, In t (write_targets g output) -> stat (disk c) t <> Some (NFile i)) ->
  run_command V CmdEncrypt g c = (o, c') -> printed_between c c' ns ->
  (hashes_in ns = [] /\ (o = Ok tt -> g "hash" = []))
  \/ exists q j ct, resolve true (disk c) (os_path output) = Some q /\ at_place (disk c') q = Some (SFile j ct)
       /\ hashes_in ns = [(output, hex_encode (ce_blake3 V ct))].
Proof. exact encrypt_shown. Qed.
Print Assumptions C118_encrypt_shown_partial.

(** Decrypt shows that of the encrypted file it was given. *)
Theorem C118_decrypt_shown_partial : forall V g c o c' input output i ns,
  ce_debug V = false -> all_or_nothing (disk c) -> inodes_ok (disk c) ->
  given g "input" input -> given g "output" output ->
  stat (disk c) (os_path input) = Some (NFile i) -> stat (disk c) (os_path output) <> Some (NFile i) ->
  run_command V CmdDecrypt g c = (o, c') -> printed_between c c' ns ->
  (hashes_in ns = [] /\ (o = Ok tt -> g "hash" = []))
  \/ hashes_in ns = [(input, hex_encode (ce_blake3 V (s_data (disk c) i)))].
Proof. exact decrypt_shown. Qed.
Print Assumptions C118_decrypt_shown_partial.

(** Nothing fails; the hash cannot be computed, and the input is kept; the input cannot be
    overwritten when it is erased, after the hash was shown; a short read. *)
Example C118_shown_case :
  shown [] [] = (Ok tt, ["de050e01"], "de050e01", (None, Some 438))
  /\ shown [] [[]; []; []; [EvFull; EvFail]] = (Err (CHash HashReadData), [], "de050e01", (Some 6, Some 438))
  /\ shown [] [[]; []; []; []; []; [EvFail]]
     = (Err (CErase (EraOverwrite OwResetCursorPosition)), ["de050e01"], "de050e01", (Some 0, Some 438))
  /\ shown [] [[]; []; []; [EvFull; EvShort 0]] = (Ok tt, ["de"], "de050e01", (None, Some 438)).
Proof. repeat split; vm_compute; reflexivity. Qed.
Example C118_shown_case_applies :
  let c := struck [] [[]; []; []; [EvFull; EvFail]] home in
  all_or_nothing (disk c) /\ inodes_ok (disk c)
  /\ given (args enc_show) "input" "a" /\ given (args enc_show) "output" "new"
  /\ stat (disk c) (os_path "a") = Some (NFile 0)
  /\ forall t, In t (write_targets (args enc_show) "new") -> stat (disk c) t <> Some (NFile 0).
Proof.
  split; [repeat constructor; intros k X; cbn in X; intuition discriminate|].
  split; [apply inodes_okb_spec; vm_compute; reflexivity|].
  split; [eexists; reflexivity|]. split; [eexists; reflexivity|]. split; [vm_compute; reflexivity|].
  intros t X. vm_compute in X. destruct X as [<-|[]]. vm_compute. discriminate.
Qed.
