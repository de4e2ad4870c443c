(** Property C90: erase and pack finish without an error when nothing is in the way.
    Vocabulary: WorksMoreSpec.v and WorksSpec.v; the concrete file systems are in
    CliCases.v and PackPathCases.v. *)
From Coq Require Import List Arith NArith ZArith Ascii String Bool.
From Verif Require Import Bytes Outcome IO Primitives Crypto Header Stream KeyModel EncDec.
From Verif Require Import Overwrite Hash FS Erase Archive Cli.
From Verif Require Import ToyEnv EraseCases FSSpec ArchiveSpec RestoreSpec RestoreManySpec CliSpec CliCases ChoiceSpec.
From Verif Require Import PackPathSpec PackPathCases WorksSpec WorksMoreSpec WorksMore.
Import ListNotations.
Local Open Scope nat_scope.
Local Open Scope list_scope.

(** Erasing a file: nothing is asked for but that it is there. *)
Theorem C90_erase_file : forall V g c input i,
  no_faults (disk c) -> given g "input" input -> stat (disk c) (os_path input) = Some (NFile i) ->
  exists c', run_command V CmdErase g c = (Ok tt, c')
    /\ stat (disk c') (os_path input) = None /\ s_data (disk c') i = [].
Proof. exact erase_file_works. Qed.
Print Assumptions C90_erase_file.

(** Erasing a directory without links, whose files have no names elsewhere, if the user
    agrees: it is gone and all else is as before, or a thread has not had enough turns. *)
Theorem C90_erase_directory : forall V g c input q o c',
  tree_ok (disk c) -> no_faults (disk c) -> given g "input" input ->
  resolve true (disk c) (os_path input) = Some q -> resolve false (disk c) (os_path input) = Some q ->
  lookup (s_nodes (disk c)) q = Some NDir -> q <> [] ->
  no_links_inside (disk c) q -> no_outside_names (disk c) q -> erase_agreed g c ->
  run_command V CmdErase g c = (o, c') ->
  (o = Ok tt
   /\ (forall r, inside q r -> at_place (disk c') r = None)
   /\ (forall r, ~ inside q r -> at_place (disk c') r = at_place (disk c) r))
  \/ (o = Diverge /\ exists k, k < List.length (s_nodes (disk c)) /\ turns (ce_sched V) k < 6).
Proof. exact erase_dir_works. Qed.
Print Assumptions C90_erase_directory.

(** Packing directories into places that can be written, with a free name for the
    temporary file, a key that can be had, and no more than can be encrypted. *)
Theorem C90_pack_works : forall V g c output dirs T k raw t,
  env_ok (ce_E V) -> tree_ok (disk c) -> no_faults (disk c) -> inodes_ok (disk c) ->
  given g "output" output -> to_pack g (disk c) output dirs ->
  can_write g (disk c) (os_path output) ->
  (forall h, given g "header" h -> can_write g (disk c) (os_path h)) ->
  resolve false (disk c) (temp_path (ce_pick V) (disk c)) = Some T -> lookup (s_nodes (disk c)) T = None ->
  (forall x, In x (write_targets g output) -> resolve true (disk c) x <> Some T) ->
  key_source V CmdPack g k -> yields V c k Validate raw t -> hashes (ce_E V) (kdf_asked g) raw ->
  (forall zs, archive_of (disk c) dirs zs ->
     encryptable (ce_E V) (z_encode (ce_Z V) (match g "zstd"%string with [] => Stored | _ => Zstd end) zs)) ->
  not_given g "erase" ->
  exists c', run_command V CmdPack g c = (Ok tt, c').
Proof. exact pack_works. Qed.
Print Assumptions C90_pack_works.

(** Then erasing them, with [--force], if they are named without links and their files
    have no names elsewhere. *)
Theorem C90_pack_erase_works : forall V g c output dirs T k raw t,
  env_ok (ce_E V) -> tree_ok (disk c) -> no_faults (disk c) -> inodes_ok (disk c) ->
  given g "output" output -> to_pack g (disk c) output dirs ->
  can_write g (disk c) (os_path output) ->
  (forall h, given g "header" h -> can_write g (disk c) (os_path h)) ->
  resolve false (disk c) (temp_path (ce_pick V) (disk c)) = Some T -> lookup (s_nodes (disk c)) T = None ->
  (forall x, In x (write_targets g output) -> resolve true (disk c) x <> Some T) ->
  key_source V CmdPack g k -> yields V c k Validate raw t -> hashes (ce_E V) (kdf_asked g) raw ->
  (forall zs, archive_of (disk c) dirs zs ->
     encryptable (ce_E V) (z_encode (ce_Z V) (match g "zstd"%string with [] => Stored | _ => Zstd end) zs)) ->
  g "erase"%string <> [] -> g "force"%string <> [] ->
  Forall (fun d => snd d = s_cwd (disk c) ++ given_names d /\ no_outside_names (disk c) (snd d)) dirs ->
  forall o c', run_command V CmdPack g c = (o, c') ->
  (o = Ok tt /\ forall d r, In d dirs -> inside (snd d) r -> at_place (disk c') r = None)
  \/ (o = Diverge /\ exists i, i < List.length (s_nodes (disk c)) + 2 /\ turns (ce_sched V) i < 6).
Proof. exact pack_erase_works. Qed.
Print Assumptions C90_pack_erase_works.

(** A file erased; a directory erased after an answer, and with [--force]; two
    directories packed, and packed and erased. *)
Example C90_case :
  let places s := map (at_place s) [["home"; "d"]; ["home"; "d"; "x"]; ["home"; "e"; "y"]]%string in
  let run l cmd c := (outcome_of V0 cmd l c, places (disk (after V0 cmd l c))) in
  let keep := [Some SDir; Some (SFile 4 (B "inner")); Some (SFile 5 (B "other"))] in
  let plain := filter (fun kv => negb (String.eqb (fst kv) "erase")) packing2 in
  let yes := B ("y" ++ String (ascii_of_nat 10) "") in
  [run [("input", ["k"])]%string CmdErase start2;
   run [("input", ["d"])]%string CmdErase (mkCli (home2, []) yes [] []);
   run [("input", ["d"]); ("force", [""])]%string CmdErase start2;
   run plain CmdPack start2; run packing2 CmdPack start2]
  = [(Ok tt, keep); (Ok tt, [None; None; Some (SFile 5 (B "other"))]);
     (Ok tt, [None; None; Some (SFile 5 (B "other"))]); (Ok tt, keep); (Ok tt, [None; None; None])].
Proof. vm_compute. reflexivity. Qed.

(** The directories of the last run satisfy the hypotheses about them. *)
Example C90_case_applies : to_pack (args packing2) (disk start2) "out" dirs2
  /\ Forall (fun d => snd d = s_cwd (disk start2) ++ given_names d) dirs2
  /\ resolve false (disk start2) (temp_path (ce_pick V0) (disk start2)) <> None.
Proof. split; [exact to_pack_here|]. split; [|vm_compute; discriminate]. constructor; [|constructor; [|constructor]]; vm_compute; reflexivity. Qed.
