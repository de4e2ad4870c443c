(** C113: a command on an encrypted file that is cut off leaves the file usable. *)
From Coq Require Import List Arith NArith ZArith Ascii String Bool Lia.
From Verif Require Import Bytes Outcome IO Primitives Crypto Header Stream KeyModel EncDec KeyOps HeaderOps.
From Verif Require Import Overwrite Hash FS Erase Archive ArchiveSpec ArchiveCases Cli CliTools.
From Verif Require Import IOSpec KeySpec ToyEnv Fixtures FileCases EraseCases FSSpec CliSpec CliCases CliToolsSpec CliToolsCases CrashSpec.
From Verif Require Import FileSpec KeyProofs KeyCrash KilledSpec KilledProofs KilledCases.
Import ListNotations.
Local Open Scope nat_scope.
Local Open Scope string_scope.
Local Open Scope list_scope.

(** A key command killed while it writes the header leaves a file no password decrypts. *)
Theorem C113_key_killed_refuted : exists V input t c c' i k pw l, env_ok (ce_E V) /\ no_faults (disk c)
  /\ stat (disk c) (os_path input) = Some (NFile i)
  /\ run_tool V input t c = (Ok tt, c') /\ killed (disk c) (disk c') k
  /\ ok_out (decrypt_execute (ce_E V) false pw (io_world (s_data (disk c) i))) = Some l
  /\ ok_out (decrypt_execute (ce_E V) false pw (io_world (s_data (disk c') i))) = Some l
  /\ forall pw' v, w_in v = dev_of (s_data k i) ->
       fst (decrypt_execute (ce_E V) false pw' v) = Err DecDeserializeHeader.
Proof. exact add_killed. Qed.
Print Assumptions C113_key_killed_refuted.

(** A strip killed while it writes leaves a file that neither the header in it nor the one
    dumped before decrypts, and that cannot be restored or stripped. *)
Theorem C113_strip_killed_refuted : exists V c c1 c2 c3 k, env_ok (ce_E V) /\ no_faults (disk c)
  /\ dump "new" "hd" Prompt c = (Ok tt, c1)
  /\ fst (run_command V CmdDecrypt (args (from_new "k" "back")) c1) = Ok tt
  /\ strip "new" c1 = (Ok tt, c2)
  /\ run_command V CmdDecrypt (args detached) c2 = (Ok tt, c3)
  /\ at_place (disk c3) ["home"; "back"] = Some (SFile (s_next (disk c2)) (B "secret"))
  /\ killed (disk c1) (disk c2) k
  /\ fst (run_command V CmdDecrypt (args (from_new "k" "back")) (on_disk k)) = Err (CDecrypt DecDeserializeHeader)
  /\ fst (run_command V CmdDecrypt (args detached) (on_disk k)) = Err (CDecrypt DecDecryptData)
  /\ fst (restore "hd" "new" (on_disk k)) = Err (THop HopUnsupportedRestore)
  /\ fst (strip "new" (on_disk k)) = Err (THop HopInvalidFile).
Proof. exact strip_killed. Qed.
Print Assumptions C113_strip_killed_refuted.

(** An unpack killed while it unpacks leaves the decrypted archive in the temporary directory. *)
Theorem C113_archive_left_refuted : exists V p c c' k i l, env_ok (ce_E V) /\ no_faults (disk c)
  /\ unpack_cli V "in" "out" false p c = (Ok tt, c') /\ killed (disk c) (disk c') k
  /\ resolve false (disk c) (temp_path (ce_pick V) (disk c)) = Some ["tmp"; "tmpname"]
  /\ at_place (disk c) ["tmp"; "tmpname"] = None /\ at_place (disk c') ["tmp"; "tmpname"] = None
  /\ at_place k ["tmp"; "tmpname"] = Some (SFile i l)
  /\ option_map (map (fun e => (zr_name e, zr_data e))) (z_decode (ce_Z V) l) = Some [("c", B "new c"); ("a", B "new a")].
Proof. exact unpack_left. Qed.
Print Assumptions C113_archive_left_refuted.

(** Whatever a key command is cut off at, only the first 416 bytes of the file differ. *)
Theorem C113_key_rest : forall V input t c o c' i k, env_ok (ce_E V) ->
  stat (disk c) (os_path input) = Some (NFile i) ->
  run_tool V input t c = (o, c') -> killed (disk c) (disk c') k -> rest_kept i 416 (disk c) k.
Proof. exact key_killed_rest. Qed.
Print Assumptions C113_key_rest.

(** [key add] cut off after 129 bytes. *)
Example C113_key_case : let k := broken_off 0 129 enc_home added_key in
  (differs (disk enc_home) k 10, fst (run_tool V0 "new" adding enc_home)) = ((438, 438, false, true), Ok tt).
Proof. exact add_differs. Qed.

(** So for a strip. *)
Theorem C113_strip_rest : forall input c o c' i k,
  stat (disk c) (os_path input) = Some (NFile i) ->
  strip input c = (o, c') -> killed (disk c) (disk c') k -> rest_kept i 416 (disk c) k.
Proof. exact strip_killed_rest. Qed.
Print Assumptions C113_strip_rest.

(** [header strip] cut off after 100 bytes. *)
Example C113_strip_case : let k := broken_off 0 100 dumped stripped in
  (differs (disk dumped) k 10, fst (strip "new" dumped)) = ((438, 438, false, true), Ok tt).
Proof. exact strip_differs. Qed.

(** A restore may have lengthened a file shorter than that. *)
Theorem C113_restore_tail : forall input output c o c' j k,
  stat (disk c) (os_path output) = Some (NFile j) ->
  restore input output c = (o, c') -> killed (disk c) (disk c') k -> tail_kept j 416 (disk c) k.
Proof. exact restore_killed_tail. Qed.
Print Assumptions C113_restore_tail.

(** [header restore] cut off after 200 bytes. *)
Example C113_restore_case : let c' := snd (restore "hd" "new" stripped) in let k := broken_off 0 200 stripped c' in
  (differs (disk stripped) k 10, fst (restore "hd" "new" stripped), bytes_eqb (s_data (disk c') 10) (s_data (disk dumped) 10))
  = ((438, 438, false, true), Ok tt, true).
Proof. exact restore_differs. Qed.

(** Cut off anywhere but at the points of [bad_cut], each password with a keyslot in the
    old header and in the new one still decrypts the file. *)
Theorem C113_key_killed_partial : forall V input t c c' i k, env_ok (ce_E V) -> no_faults (disk c) ->
  (forall key, t <> ToolVerify key) ->
  stat (disk c) (os_path input) = Some (NFile i) ->
  run_tool V input t c = (Ok tt, c') -> killed (disk c) (disk c') k ->
  let data := s_data (disk c) i in let data' := s_data (disk c') i in
  exists op n h slots slots', supplies V c t op /\ n <= 416 /\ s_data k i = torn 0 n data data'
    /\ v5_header (dev_at data 0) h slots /\ v5_header (dev_at data' 0) (with_slots h slots') slots'
    /\ (canonical_at data 0 h -> ~ bad_cut op (List.length slots) n ->
        passwords_kept (ce_E V) data data' (s_data k i) h slots slots').
Proof. exact key_killed. Qed.
Print Assumptions C113_key_killed_partial.

(** [key add] cut off in the middle of the new keyslot: the old key still opens the file. *)
Example C113_add_case : let k := broken_off 0 170 enc_home added_key in
  (differs (disk enc_home) k 10, fst (opens "k" (on_disk k)), fst (opens "h" (on_disk k)), fst (opens "h" added_key))
  = ((438, 438, false, true), Ok tt, Err (CDecrypt DecDecryptMasterKey), Ok tt).
Proof. exact add_half. Qed.

(** An unpack cut off anywhere has touched nothing outside the output directory, but the
    temporary archive and the directories it made on the way. *)
Theorem C113_unpack_killed : forall V input output verbose p c o c' q0 names k,
  tree_ok (disk c) -> lookup (s_nodes (disk c)) (s_cwd (disk c)) = Some NDir -> inodes_ok (disk c) ->
  output_at (disk c) (parse_path output) q0 names -> no_outside_names (disk c) (q0 ++ names) ->
  unpack_cli V input output verbose p c = (o, c') -> killed (disk c) (disk c') k ->
  forall x, at_place k x <> at_place (disk c) x ->
     inside (q0 ++ names) x
     \/ resolve false (disk c) (temp_path (ce_pick V) (disk c)) = Some x
     \/ (on_the_way q0 names x /\ at_place (disk c) x = None /\ at_place k x = Some SDir).
Proof. exact unpack_killed. Qed.
Print Assumptions C113_unpack_killed.

(** [unpack] cut off after the second file is emptied. *)
Example C113_unpack_case : let k := broken_off 5 0 packed_in unpacked in
  (map (at_place k) [["home"; "out"; "c"]; ["home"; "out"; "a"]],
   bytes_eqb (s_data (disk packed_in) 0) (s_data k 0), map (at_place (disk unpacked)) [["home"; "out"; "c"]; ["home"; "out"; "a"]])
  = ([Some (SFile 11 (B "new c")); Some (SFile 2 [])], true, [Some (SFile 11 (B "new c")); Some (SFile 2 (B "new a"))]).
Proof. exact unpack_half. Qed.
