(** C115: a file is replaced by its encryption, or by what was encrypted, only if that is
    complete, whatever fails. *)
From Coq Require Import List Arith NArith ZArith Ascii String Bool Lia.
From Verif Require Import Bytes Outcome IO Primitives Crypto Header Stream KeyModel EncDec KeyOps HeaderOps.
From Verif Require Import Overwrite Hash FS Erase Archive Cli CliTools.
From Verif Require Import IOSpec ToyEnv Fixtures FileCases EraseCases FSSpec ArchiveSpec CliSpec CliCases.
From Verif Require Import FaultsSpec FaultsRuns FaultsProofs FaultsDecrypt FaultsHeader FaultsCases.
Import ListNotations.
Local Open Scope nat_scope.
Local Open Scope string_scope.
Local Open Scope list_scope.

(** One read that returns less than was asked for: the rest of the file is not encrypted,
    success is reported, and the file is erased. *)
Theorem C115_half_refuted : exists V g c c1 c2 k, env_ok (ce_E V) /\ inodes_ok (disk c)
  /\ s_faults (disk c) = [] /\ s_plans (disk c) = [[EvFull; EvShort k]]
  /\ at_place (disk c) ["home"; "a"] = Some (SFile 0 (B "secret"))
  /\ given g "input" "a" /\ given g "output" "new"
  /\ run_command V CmdEncrypt g c = (Ok tt, c1)
  /\ at_place (disk c1) ["home"; "a"] = None
  /\ run_command V CmdDecrypt (args (from_new "k" "back")) c1 = (Ok tt, c2)
  /\ exists i, at_place (disk c2) ["home"; "back"] = Some (SFile i (B "sec")).
Proof. exact half_encrypted. Qed.
Print Assumptions C115_half_refuted.

(** One write that takes only a part of the header: the file is erased, and no password
    decrypts the output. *)
Theorem C115_header_cut_refuted : exists V g c c1 i l, env_ok (ce_E V) /\ inodes_ok (disk c)
  /\ s_faults (disk c) = [] /\ at_place (disk c) ["home"; "a"] = Some (SFile 0 (B "secret"))
  /\ given g "input" "a" /\ given g "output" "new"
  /\ run_command V CmdEncrypt g c = (Ok tt, c1)
  /\ at_place (disk c1) ["home"; "a"] = None
  /\ at_place (disk c1) ["home"; "new"] = Some (SFile i l)
  /\ forall pw v, w_in v = dev_of l -> fst (decrypt_execute (ce_E V) false pw v) = Err DecDeserializeHeader.
Proof. exact header_cut. Qed.
Print Assumptions C115_header_cut_refuted.

(** What holds: any calls may fail and be interrupted, also those that erase the input, if
    those that succeed are not done in part.  Then either the content can be got back from
    the output, which is so when success is reported, or the input is as it was. *)
Theorem C115_encrypt_kept_partial : forall V g c o c' input output i,
  env_ok (ce_E V) -> all_or_nothing (disk c) -> inodes_ok (disk c) ->
  given g "input" input -> given g "output" output ->
  stat (disk c) (os_path input) = Some (NFile i) ->
  (forall t, In t (write_targets g output) -> stat (disk c) t <> Some (NFile i)) ->
  (forall h, given g "header" h -> different (disk c) (os_path output) (os_path h)) ->
  run_command V CmdEncrypt g c = (o, c') ->
  let kept := exists raw, key_taken V CmdEncrypt g Validate c output raw
    /\ kept_encrypted V g output (disk c) (disk c') raw (s_data (disk c) i) in
  (o = Ok tt -> kept)
  /\ (kept \/ stat (disk c') (os_path input) = Some (NFile i) /\ s_data (disk c') i = s_data (disk c) i).
Proof. exact encrypt_faults. Qed.
Print Assumptions C115_encrypt_kept_partial.

(** The same for decrypting a file with its header: what is in the output is what
    decrypting without failures would have given. *)
Theorem C115_decrypt_kept_partial : forall V g c o c' input output i,
  env_ok (ce_E V) -> ce_debug V = false -> all_or_nothing (disk c) -> inodes_ok (disk c) ->
  given g "input" input -> given g "output" output -> not_given g "header" ->
  stat (disk c) (os_path input) = Some (NFile i) ->
  stat (disk c) (os_path output) <> Some (NFile i) ->
  run_command V CmdDecrypt g c = (o, c') ->
  let whole := exists raw pt q j, key_taken V CmdDecrypt g Direct c output raw
    /\ ok_out (decrypt_execute (ce_E V) false raw (io_world (s_data (disk c) i))) = Some pt
    /\ resolve true (disk c) (os_path output) = Some q /\ at_place (disk c') q = Some (SFile j pt) in
  (o = Ok tt -> whole)
  /\ (whole \/ stat (disk c') (os_path input) = Some (NFile i) /\ s_data (disk c') i = s_data (disk c) i).
Proof. exact decrypt_faults. Qed.
Print Assumptions C115_decrypt_kept_partial.

(** And with the header in a file of its own. *)
Theorem C115_decrypt_header_kept_partial : forall V g c o c' input output header i ih,
  env_ok (ce_E V) -> ce_debug V = false -> all_or_nothing (disk c) -> inodes_ok (disk c) ->
  given g "input" input -> given g "output" output -> given g "header" header ->
  stat (disk c) (os_path input) = Some (NFile i) -> stat (disk c) (os_path header) = Some (NFile ih) ->
  stat (disk c) (os_path output) <> Some (NFile i) -> stat (disk c) (os_path output) <> Some (NFile ih) ->
  run_command V CmdDecrypt g c = (o, c') ->
  let whole := exists raw pt q j, key_taken V CmdDecrypt g Direct c output raw
    /\ ok_out (decrypt_execute (ce_E V) true raw (with_header (s_data (disk c) i) (s_data (disk c) ih))) = Some pt
    /\ resolve true (disk c) (os_path output) = Some q /\ at_place (disk c') q = Some (SFile j pt) in
  (o = Ok tt -> whole)
  /\ (whole \/ stat (disk c') (os_path input) = Some (NFile i) /\ s_data (disk c') i = s_data (disk c) i).
Proof. exact decrypt_header_faults. Qed.
Print Assumptions C115_decrypt_header_kept_partial.

(** Reading and writing fails or is interrupted, opening the input again, overwriting it
    and removing it fails: the sizes of input and output. *)
Example C115_encrypt_case :
  map (fun x => encrypting (fst x) (snd x))
    [ ([], [[EvFull; EvInt]]);
      ([], [[]; []; [EvFull; EvFull; EvFail]]);
      ([], [[]; []; [EvFull; EvFull; EvInt]]);
      ([false; false; false; false; true], []);
      ([], [[]; []; []; []; [EvFull; EvFail]]);
      ([false; false; false; false; false; false; false; true], []) ]
  = [ (Err (CEncrypt EncEncryptFile), (Some 6, Some 416));
      (Err (CEncrypt EncEncryptFile), (Some 6, Some 416));
      (Ok tt, (None, Some 438));
      (Err (CStorage StOpenRead), (Some 6, Some 438));
      (Err (CErase (EraOverwrite OwFlushFile)), (Some 0, Some 438));
      (Err (CErase EraRemoveFile), (Some 0, Some 438)) ].
Proof. exact failures_told. Qed.
Example C115_decrypt_case :
  map (fun x => decrypting (fst x) (snd x))
    [ ([], [[EvInt; EvFull; EvFail]]);
      ([], [[]; []; [EvFail]]);
      ([], [[]; []; [EvInt; EvInt]]);
      ([], [[]; []; []; []; [EvFull; EvFail]]) ]
  = [ (Err (CDecrypt DecDeserializeHeader), (Some 438, Some 0));
      (Err (CDecrypt DecDecryptData), (Some 438, Some 0));
      (Ok tt, (None, Some 6));
      (Err (CErase (EraOverwrite OwFlushFile)), (Some 0, Some 6)) ].
Proof. exact decrypt_failures_told. Qed.
Example C115_decrypt_header_case :
  map (fun x => decrypting_h (fst x) (snd x))
    [ ([], [[EvInt; EvFull; EvFail]]);
      ([], [[]; [EvFail]]);
      ([], [[]; [EvInt; EvInt]]);
      ([], [[]; []; []; [EvFail]]);
      ([], [[]; []; []; []; []; [EvFull; EvFail]]) ]
  = [ (Err (CDecrypt DecReadEncryptedData), (Some 22, Some 0));
      (Err (CDecrypt DecDeserializeHeader), (Some 22, Some 0));
      (Ok tt, (None, Some 6));
      (Err (CDecrypt DecDecryptData), (Some 22, Some 0));
      (Err (CErase (EraOverwrite OwFlushFile)), (Some 0, Some 6)) ].
Proof. exact header_failures_told. Qed.
