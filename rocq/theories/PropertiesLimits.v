(** Property C111. *)
From Coq Require Import List Arith ZArith String.
From Verif Require Import Bytes Outcome IO Primitives Crypto EncDec FS Erase Archive Cli.
From Verif Require Import FSSpec FSFacts ArchiveSpec EraseCases CliSpec CliCases CrashCases NamesCases.
From Verif Require Import Limits LimitsSpec LimitsProofs LimitsCases.
Import ListNotations.
Local Open Scope string_scope.
Local Open Scope list_scope.

(** C111: a directory may have any number of files.  It may not: where more of them would
    be open at once than the process may have, a command that works without the limit
    ends with an error, after the old output has been emptied. *)
Theorem C111_any_number_refuted : exists L V g c c',
  no_faults (disk c) /\ tree_ok (disk c) /\ inodes_ok (disk c)
  /\ fst (run_command V CmdPack g c) = Ok tt
  /\ run_command_l L V CmdPack g c = (Err (CStorage StOpenRead), c')
  /\ at_place (disk c) ["home"; "out"] = Some (SFile 2 (B "old"))
  /\ at_place (disk c') ["home"; "out"] = Some (SFile 2 []).
Proof. exact any_number_fails. Qed.
Print Assumptions C111_any_number_refuted.

Example C111_refuted_case :
  outcome_l 3 CmdPack packing4 (at_name "y") = Err (CStorage StOpenRead)
  /\ at_place (disk (after_l 3 CmdPack packing4 (at_name "y"))) ["home"; "out"] = Some (SFile 2 []).
Proof. exact pack_three. Qed.

(** Whatever the limit, the key, the faults and the directories: if packing succeeds, they
    have, taken together, fewer files than may be open. *)
Theorem C111_never_packed : forall L V given c c', tree_ok (disk c) ->
  run_command_l L V CmdPack given c = (Ok tt, c') ->
  forall ds, dirs_with_files (disk c) (given "input") ds -> all_files ds <> 0 -> all_files ds < l_open L.
Proof. exact run_few. Qed.
Print Assumptions C111_never_packed.

Example C111_never_case : tree_ok (with_name "y")
  /\ dirs_with_files (with_name "y") (args packing4 "input") [(["home"; "d"], [["x"]; ["y"]])]
  /\ outcome_l 4 CmdPack packing4 (at_name "y") = Ok tt
  /\ found (disk (after_l 4 CmdPack packing4 (at_name "y"))) ["home"; "out"] <> Some 0.
Proof. exact (conj here_tree (conj one_dir pack_four)). Qed.

Example C111_together_case :
  map (fun n => outcome_l n CmdPack packing_twice (at_name "y")) [5; 6] = [Err (CStorage StOpenRead); Ok tt].
Proof. exact pack_twice. Qed.

(** And with as many, a command that would have succeeded always ends with an error of
    the storage and an empty output. *)
Theorem C111_output_lost : forall L V g c c1 output, tree_ok (disk c) -> given g "output" output ->
  run_command V CmdPack g c = (Ok tt, c1) ->
  forall f q rs i, In f (g "input") -> resolve true (disk c) (os_path f) = Some q ->
  lookup (s_nodes (disk c)) q = Some NDir -> files_in (disk c) q rs -> rs <> [] ->
  l_open L <= List.length rs -> stat (disk c) (os_path output) = Some (NFile i) ->
  exists e c', run_command_l L V CmdPack g c = (Err (CStorage e), c') /\ s_data (disk c') i = [].
Proof. exact run_lost. Qed.
Print Assumptions C111_output_lost.

(** Erasing such a directory is an error too, and changes nothing. *)
Theorem C111_not_erased : forall L V g c f q rs o c', tree_ok (disk c) -> given g "input" f ->
  resolve true (disk c) (os_path f) = Some q -> lookup (s_nodes (disk c)) q = Some NDir ->
  files_in (disk c) q rs -> rs <> [] -> l_open L < List.length rs ->
  run_command_l L V CmdErase g c = (o, c') -> o <> Ok tt /\ same_disk (disk c) (disk c').
Proof. exact run_erase_many. Qed.
Print Assumptions C111_not_erased.

Example C111_erase_case : outcome_l 1 CmdErase erasing1 (at_name "y") = Err (CEraseDir EdReadDirEntries)
  /\ at_place (disk (after_l 1 CmdErase erasing1 (at_name "y"))) ["home"; "d"; "x"] = Some (SFile 3 (B "inner"))
  /\ outcome_l 3 CmdErase erasing1 (at_name "y") = Ok tt
  /\ at_place (disk (after_l 3 CmdErase erasing1 (at_name "y"))) ["home"; "d"] = None.
Proof. exact erase_cases. Qed.

(** Where enough files may be open, the limit changes nothing: what is proved of packing
    without erasing holds with the limit, whatever fails. *)
Theorem C111_enough_pack_partial : forall L V given c, (forall x, l_walk L x <= 10) -> not_given given "erase" ->
  List.length (given "input") * (3 + List.length (s_nodes (disk c))) + 13 <= l_open L ->
  run_command_l L V CmdPack given c = run_command V CmdPack given c.
Proof. exact run_enough. Qed.
Print Assumptions C111_enough_pack_partial.

Example C111_enough_case : (forall x, l_walk (few 23) x <= 10)
  /\ List.length (args packing4 "input") * (3 + List.length (s_nodes (disk (at_name "y")))) + 13 <= l_open (few 23)
  /\ outcome_l 23 CmdPack packing4 (at_name "y") = Ok tt.
Proof. exact pack_enough. Qed.

(** The same for erasing. *)
Theorem C111_enough_erase : forall L V g c f, (forall x, l_walk L x <= 10) -> given g "input" f ->
  List.length (s_nodes (disk c)) + 11 <= l_open L ->
  run_command_l L V CmdErase g c = run_command V CmdErase g c.
Proof. exact run_erase_enough. Qed.
Print Assumptions C111_enough_erase.
