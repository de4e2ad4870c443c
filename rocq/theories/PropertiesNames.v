(** Property C110. *)
From Coq Require Import List Arith ZArith String.
From Verif Require Import Bytes Outcome IO Primitives Crypto EncDec FS Archive Cli.
From Verif Require Import FSSpec FSFacts ArchiveSpec EraseCases RestoreSpec RestoreManySpec CliSpec CliCases ChoiceSpec.
From Verif Require Import PackPathSpec WorksSpec WorksMoreSpec CrashCases.
From Verif Require Import Names NamesSpec NamesProofs NamesCli NamesCases.
Import ListNotations.
Local Open Scope string_scope.
Local Open Scope list_scope.

(** C110: where all names are text, the check of the names changes nothing: what is
    proved of the commands without it holds with it, whatever fails. *)
Theorem C110_same_programs : forall V cmd given c, all_names (disk c) -> given_names given ->
  run_command_t V cmd given c = run_command V cmd given c.
Proof. exact run_same. Qed.
Print Assumptions C110_same_programs.

Example C110_same_case : given_names (args packing4) /\ is_name accented /\ all_names (with_name accented)
  /\ fst (run_command_t Vt CmdPack (args packing4) (at_name accented)) = Ok tt
  /\ temp_holds (disk (after_t accented)) = None
  /\ found (disk (after_t accented)) ["home"; "out"] <> Some 0.
Proof.
  exact (conj packing4_names (conj accented_name (conj (with_name_all _ accented_name) accented_works))).
Qed.

(** So for the operation of the library, where the names of the entries are text. *)
Theorem C110_library_same : forall E Z pick req a,
  Forall (fun e => named (entry_path e)) (pr_files req) ->
  pack_execute_t E Z pick req a = pack_execute E Z pick req a.
Proof. exact library_same. Qed.
Print Assumptions C110_library_same.

(** Directories whose names may be any that the file system takes are not packed: one
    name is enough to lose the old output, and to leave the files before it readable in
    the directory for temporary files. *)
Theorem C110_any_name_refuted : exists V g c c',
  given_names g /\ no_faults (disk c) /\ tree_ok (disk c) /\ inodes_ok (disk c)
  /\ fst (run_command V CmdPack g c) = Ok tt
  /\ run_command_t V CmdPack g c = (Err (CPack PkReadData), c')
  /\ at_place (disk c) ["home"; "out"] = Some (SFile 2 (B "old"))
  /\ at_place (disk c') ["home"; "out"] = Some (SFile 2 [])
  /\ at_place (disk c) ["tmp"; "tmpname"] = None
  /\ exists i l, at_place (disk c') ["tmp"; "tmpname"] = Some (SFile i l)
       /\ option_map (map (fun e => (zr_name e, zr_data e))) (z_decode (ce_Z V) l)
          = Some [("d/", []); ("d/x", B "inner")].
Proof. exact any_name_fails. Qed.
Print Assumptions C110_any_name_refuted.

Example C110_refuted_case : ~ is_name odd
  /\ fst (run_command_t Vt CmdPack (args packing4) (at_name odd)) = Err (CPack PkReadData)
  /\ at_place (disk (after_t odd)) ["home"; "out"] = Some (SFile 2 [])
  /\ temp_holds (disk (after_t odd)) = Some [("d/", []); ("d/x", B "inner")].
Proof. exact (conj odd_no_name odd_stops). Qed.

(** It is never packed, whatever else happens: if the command succeeds, all names below
    the directories are text. *)
Theorem C110_never_packed : forall V given c c', not_given given "header" ->
  run_command_t V CmdPack given c = (Ok tt, c') ->
  forall f q, In f (given "input") -> resolve true (disk c) (os_path f) = Some q ->
  lookup (s_nodes (disk c)) q = Some NDir -> names_below (disk c) q.
Proof. exact run_ok. Qed.
Print Assumptions C110_never_packed.

(** The operation of the library, with a header file or without. *)
Theorem C110_library_never : forall E Z pick req a a',
  pack_execute_t E Z pick req a = (Ok tt, a') ->
  Forall (fun e => named (entry_path e)) (pr_files req).
Proof. exact library_ok. Qed.
Print Assumptions C110_library_never.

(** Without failures, it always leaves what was added before such a name, unencrypted,
    in a new file, unless it cannot make that. *)
Theorem C110_left_readable : forall E Z pick req s tr es1 e es2, no_faults s ->
  (forall h, In (EFile h) (pr_files req) -> h_ino h < s_next s) ->
  pr_files req = es1 ++ e :: es2 ->
  Forall (fun e => named (entry_path e)) es1 -> Forall just_opened es1 ->
  NoDup (map ze_name (map (item s) es1)) ->
  ~ named (entry_path e) ->
  exists r s', pack_execute_t E Z pick req (s, tr) = (Err r, (s', tr))
  /\ ((r = PkCreateArchive /\ same_disk s s')
      \/ (r = PkReadData /\ exists T, resolve false s (temp_path pick s) = Some T
          /\ at_place s T = None
          /\ at_place s' T = Some (SFile (s_next s) (z_encode Z (pr_compression req) (map (item s) es1))))).
Proof. exact stopped. Qed.
Print Assumptions C110_left_readable.

(** With names that are text, packing works under the conditions of C90. *)
Theorem C110_pack_works_partial : forall V g c output dirs T k raw t,
  env_ok (ce_E V) -> tree_ok (disk c) -> no_faults (disk c) -> inodes_ok (disk c) ->
  all_names (disk c) -> given_names g ->
  given g "output" output -> to_pack g (disk c) output dirs ->
  can_write g (disk c) (os_path output) ->
  (forall h, given g "header" h -> can_write g (disk c) (os_path h)) ->
  resolve false (disk c) (temp_path (ce_pick V) (disk c)) = Some T -> lookup (s_nodes (disk c)) T = None ->
  (forall x, In x (write_targets g output) -> resolve true (disk c) x <> Some T) ->
  key_source V CmdPack g k -> yields V c k Validate raw t -> hashes (ce_E V) (kdf_asked g) raw ->
  (forall zs, archive_of (disk c) dirs zs ->
     encryptable (ce_E V) (z_encode (ce_Z V) (match g "zstd" with [] => Stored | _ => Zstd end) zs)) ->
  not_given g "erase" ->
  exists c', run_command_t V CmdPack g c = (Ok tt, c').
Proof. exact pack_works_t. Qed.
Print Assumptions C110_pack_works_partial.
