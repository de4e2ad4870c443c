(** C114: an unpack that reports success has written everything in the archive. *)
From Coq Require Import List Arith NArith ZArith Ascii String Bool Lia.
From Verif Require Import Bytes Outcome IO Primitives Crypto Header Stream KeyModel EncDec KeyOps HeaderOps.
From Verif Require Import Overwrite Hash FS Erase Archive ArchiveSpec ArchiveCases Cli CliTools.
From Verif Require Import IOSpec ToyEnv Fixtures FileCases EraseCases FSSpec CliSpec CliCases CliToolsSpec CliToolsCases.
From Verif Require Import WrittenSpec WrittenProofs WrittenCli WrittenCases.
Import ListNotations.
Local Open Scope nat_scope.
Local Open Scope string_scope.
Local Open Scope list_scope.

(** An entry that cannot be opened is left out without an error. *)
Theorem C114_dropped_refuted : exists E Z pick sched req s a' zs z p,
  env_ok E /\ zip_ok Z /\ tree_ok s /\ no_faults s /\ inodes_ok s
  /\ (forall ps, ur_ask req ps = Some (map (fun _ => true) ps))
  /\ unpack_execute E Z pick sched req (s, []) = (Ok tt, a')
  /\ archive_in E Z BLOCK_SIZE req s zs
  /\ In z zs /\ enclosed_name (zr_name z) = Some p /\ ~ for_dir z
  /\ stat (fst a') (path_push (ur_out req) p) = None.
Proof. exact entry_dropped. Qed.
Print Assumptions C114_dropped_refuted.

(** Of two entries that lead to one file the first is replaced without an error. *)
Theorem C114_replaced_refuted : exists V p c c' zs, env_ok (ce_E V) /\ zip_ok (ce_Z V)
  /\ no_faults (disk c) /\ inodes_ok (disk c)
  /\ cp_force p = Force
  /\ unpack_cli V "in" "out" false p c = (Ok tt, c')
  /\ map (fun z => (zr_name z, zr_data z)) zs = [("c", B "first"); ("./c", B "second")]
  /\ (exists req, h_ino (ur_in req) = 0 /\ archive_in (ce_E V) (ce_Z V) BLOCK_SIZE req (disk c) zs)
  /\ stat (disk c) (os_path "in") = Some (NFile 0)
  /\ at_place (disk c') ["home"; "out"; "c"] = Some (SFile 11 (B "second")).
Proof. exact entry_replaced. Qed.
Print Assumptions C114_replaced_refuted.

(** The library: whatever fails or is done in part, success means that every other entry
    that was accepted is there. *)
Theorem C114_unpack_written : forall E Z pick bs sched req s tr a',
  inodes_ok s -> lookup (s_nodes s) (s_cwd s) = Some NDir ->
  h_ino (ur_in req) < s_next s -> (forall h, ur_hdr req = Some h -> h_ino h < s_next s) ->
  unpack_execute_bs E Z pick bs sched req (s, tr) = (Ok tt, a') ->
  exists zs answers temp,
    resolve false s (temp_path pick s) = Some temp
    /\ archive_in E Z bs req s zs
    /\ ur_ask req (targets (ur_out req) zs) = Some answers
    /\ stat (fst a') (ur_out req) = Some NDir
    /\ all_written (Some temp) (fst a') (chosen (ur_out req) zs answers).
Proof. exact unpack_written. Qed.
Print Assumptions C114_unpack_written.

(** The command. *)
Theorem C114_cli_written : forall V input output verbose p c c',
  inodes_ok (disk c) -> lookup (s_nodes (disk c)) (s_cwd (disk c)) = Some NDir ->
  unpack_cli V input output verbose p c = (Ok tt, c') ->
  exists req zs answers temp t,
    stat (disk c) (os_path input) = Some (NFile (h_ino (ur_in req))) /\ h_pos (ur_in req) = 0
    /\ yields V c (cp_key p) Direct (ur_raw_key req) t
    /\ resolve false (disk c) (temp_path (ce_pick V) (disk c)) = Some temp
    /\ archive_in (ce_E V) (ce_Z V) BLOCK_SIZE req (disk c) zs
    /\ (cp_force p = Force -> answers = map (fun _ => true) (targets (parse_path output) zs))
    /\ stat (disk c') (parse_path output) = Some NDir
    /\ all_written (Some temp) (disk c') (chosen (parse_path output) zs answers).
Proof. exact cli_written. Qed.
Print Assumptions C114_cli_written.

(** Writes done in part and interrupted calls: everything is there in the end. *)
Example C114_pieces_case :
  unpacked_with [[]; []; [EvShort 7; EvInt]; [EvShort 2; EvInt; EvShort 1]]
  = (Ok tt, [Some SDir; Some (SFile 11 (B "new c")); Some (SFile 2 (B "new a"))]).
Proof. exact in_pieces. Qed.
(** A write that fails: the part before it is there, and the command says so. *)
Example C114_failing_case :
  unpacked_with [[]; []; []; [EvShort 2; EvFail]]
  = (Err (TUnpack UnWriteData), [Some SDir; Some (SFile 11 (B "ne")); Some (SFile 2 (B "precious"))]).
Proof. exact not_all_written. Qed.
