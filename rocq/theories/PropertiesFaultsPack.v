(** C116: pack reports success only if the archive has everything, whatever fails. *)
From Coq Require Import List Arith NArith ZArith Ascii String Bool Lia.
From Verif Require Import Bytes Outcome IO Primitives Crypto Header Stream KeyModel EncDec KeyOps HeaderOps.
From Verif Require Import ArchiveSpec RestoreSpec RestoreManySpec ArchiveCases RestoreCases.
From Verif Require Import Overwrite Hash FS Erase Archive Cli CliTools.
From Verif Require Import IOSpec ToyEnv Fixtures FileCases EraseCases FSSpec CliSpec CliCases PackPathSpec PackPathCases.
From Verif Require Import NamesSpec FaultsSpec FaultsCases FaultsPack FaultsPackPath FaultsPackCases.
Import ListNotations.
Local Open Scope nat_scope.
Local Open Scope string_scope.
Local Open Scope list_scope.

(** One read that returns less than was asked for: the rest of the file is not packed,
    success is reported, and the directory is erased. *)
Theorem C116_half_packed_refuted : exists V g c c1 c2 k, env_ok (ce_E V) /\ inodes_ok (disk c)
  /\ s_faults (disk c) = [] /\ s_plans (disk c) = [[]; []; []; [EvShort k]]
  /\ g "input" = ["d"; "./e"] /\ given g "output" "out" /\ to_pack g (disk c) "out" dirs2
  /\ at_place (disk c) ["home"; "d"; "x"] = Some (SFile 4 (B "inner"))
  /\ run_command V CmdPack g c = (Ok tt, c1)
  /\ at_place (disk c1) ["home"; "d"] = None
  /\ unpack_cli V "out" "new" false taking2 c1 = (Ok tt, c2)
  /\ exists i, at_place (disk c2) ["home"; "new"; "d"; "x"] = Some (SFile i (B "inn")).
Proof. exact half_packed. Qed.
Print Assumptions C116_half_packed_refuted.

(** What holds: any calls may fail and be interrupted, if those that succeed are not done
    in part.  If the library reports that it has packed, then the key gives back from the
    output, and the header file if there is one, an archive with every entry given, under
    its name and with its content, no two under the same name. *)
Theorem C116_pack_complete_partial : forall E Z pick req s tr a',
  env_ok E -> all_or_nothing s -> ht_version (pr_header_type req) = V5 ->
  Forall from_start (pr_files req) ->
  (forall h, In (EFile h) (pr_files req) -> h_ino h < s_next s) ->
  h_ino (pr_out req) < s_next s -> s_data s (h_ino (pr_out req)) = [] -> no_short (h_plan (pr_out req)) ->
  (forall hh, pr_hdr req = Some hh -> h_ino hh < s_next s /\ h_ino hh <> h_ino (pr_out req)
     /\ s_data s (h_ino hh) = [] /\ no_short (h_plan hh)) ->
  pack_execute E Z pick req (s, tr) = (Ok tt, a') ->
  let zs := map (item s) (pr_files req) in
  let archive := s_data (fst a') (h_ino (pr_out req)) in
  NoDup (map ze_name zs)
  /\ match pr_hdr req with
     | None => recovers E (pr_raw_key req) archive None (z_encode Z (pr_compression req) zs)
     | Some hh => firstn 416 archive <> repeat Byte.x00 (List.length (firstn 416 archive)) ->
         recovers E (pr_raw_key req) archive (Some (s_data (fst a') (h_ino hh))) (z_encode Z (pr_compression req) zs)
     end.
Proof. exact pack_faults. Qed.
Print Assumptions C116_pack_complete_partial.

(** By path, with or without [--erase]: success is reported only if the archive is there
    and unpacks to copies of the directories, and the directories are changed only if it
    is, however the run ends. *)
Theorem C116_pack_erase_partial : forall V g c o c' output dirs,
  env_ok (ce_E V) -> zip_ok (ce_Z V) ->
  tree_ok (disk c) -> all_or_nothing (disk c) -> inodes_ok (disk c) ->
  given g "output" output -> to_pack g (disk c) output dirs ->
  run_command V CmdPack g c = (o, c') ->
  (o = Ok tt -> kept_packed V g c output (disk c') dirs)
  /\ (Forall (fun d => unchanged_inside (disk c) (snd d) (disk c')) dirs
      \/ kept_packed V g c output (disk c') dirs).
Proof. exact pack_path_an. Qed.
Print Assumptions C116_pack_erase_partial.

(** Reading a packed file, the output, the file in the temporary directory, opening a
    packed file, wiping the file in the temporary directory, flushing the output and
    erasing fails: the sizes of output and header, and of the files packed. *)
Example C116_pack_case :
  map (fun x => packing (fst x) (snd x))
    [ ([], [[]; []; []; [EvFail]]);
      ([], [[]; [EvFail]]);
      ([], [[]; []; []; []; []; [EvFail]]);
      ([], [[]; []; []; []; []; [EvInt]]);
      ([false; false; false; false; false; false; true], []);
      (repeat false 11 ++ [true], []);
      (repeat false 14 ++ [true], []);
      (repeat false 19 ++ [true], []) ]
  = [ (Err (CPack PkReadData), (Some 0, Some 0), [Some 5; Some 5]);
      (Err (CPack (PkEncrypt EncResetCursorPosition)), (Some 0, Some 0), [Some 5; Some 5]);
      (Err (CPack PkFinishArchive), (Some 0, Some 0), [Some 5; Some 5]);
      (Ok tt, (Some 77, Some 416), [None; None]);
      (Err (CStorage StOpenRead), (Some 0, Some 0), [Some 5; Some 5]);
      (Ok tt, (Some 77, Some 416), [None; None]);
      (Err (CStorage StFlushFile), (Some 77, Some 416), [Some 5; Some 5]);
      (Err (CEraseDir (EdEraseFile EraOpenFile)), (Some 77, Some 416), [Some 0; Some 5]) ].
Proof. exact pack_failures_told. Qed.

(** The theorem about the command applies to these runs. *)
Example C116_case_applies : forall fs ps, to_pack (args packing2) (disk (struck fs ps home2)) "out" dirs2.
Proof. exact to_pack_struck. Qed.
