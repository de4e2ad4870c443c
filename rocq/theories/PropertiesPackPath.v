(** Properties C86 and what holds of C69: pack and unpack by path.  Vocabulary:
    PackPathSpec.v; the concrete file system is in PackPathCases.v. *)
From Coq Require Import List Arith NArith ZArith Ascii String Bool.
From Verif Require Import Bytes Outcome IO Primitives Crypto Header Stream KeyModel EncDec.
From Verif Require Import Overwrite Hash FS Erase Archive Cli CliTools.
From Verif Require Import ToyEnv EraseCases FSSpec ArchiveSpec RestoreSpec RestoreManySpec CliSpec CliCases PackPathSpec PackPath PackPathCases.
Import ListNotations.
Local Open Scope nat_scope.
Local Open Scope list_scope.

(** C86: what [pack] has made of directories, [unpack] makes into copies of them, with
    the same key, whether or not the directories have been erased. *)
Theorem C86_pack_unpack_by_path : forall V g c c' output dirs,
  env_ok (ce_E V) -> zip_ok (ce_Z V) ->
  tree_ok (disk c) -> no_faults (disk c) -> inodes_ok (disk c) ->
  given g "output" output -> to_pack g (disk c) output dirs ->
  run_command V CmdPack g c = (Ok tt, c') ->
  kept_packed V g c output (disk c') dirs.
Proof. exact pack_path_ok. Qed.
Print Assumptions C86_pack_unpack_by_path.

(** Two directories, erased after packing, the header in a file of its own. *)
Example C86_case :
  let c := after V0 CmdPack packing2 start2 in
  let r := unpack_cli V0 "out" "new" false taking2 c in
  (outcome_of V0 CmdPack packing2 start2, fst r,
   map (at_place (disk c)) [["home"; "d"]; ["home"; "d"; "x"]; ["home"; "e"]; ["home"; "e"; "y"]]%string,
   map (fun l => match at_place (disk (snd r)) ("home" :: "new" :: l)%string with
                 | Some (SFile _ d) => d | Some SDir => B "dir" | _ => [] end)
       [["d"]; ["d"; "x"]; ["e"]; ["e"; "y"]]%string)
  = (Ok tt, Ok tt, [None; None; None; None], [B "dir"; B "inner"; B "dir"; B "other"]).
Proof. vm_compute. reflexivity. Qed.

(** The theorem applies to it. *)
Example C86_case_applies : to_pack (args packing2) (disk start2) "out" dirs2.
Proof. exact to_pack_here. Qed.

(** C69, what holds: with an output and a header elsewhere, [pack --erase] changes the
    directories only if the archive remains, however the run ends. *)
Theorem C69_pack_erase_partial : forall V g c o c' output dirs,
  env_ok (ce_E V) -> zip_ok (ce_Z V) ->
  tree_ok (disk c) -> no_faults (disk c) -> inodes_ok (disk c) ->
  given g "output" output -> to_pack g (disk c) output dirs ->
  run_command V CmdPack g c = (o, c') ->
  Forall (fun d => unchanged_inside (disk c) (snd d) (disk c')) dirs
  \/ kept_packed V g c output (disk c') dirs.
Proof. exact pack_path_any. Qed.
Print Assumptions C69_pack_erase_partial.

(** The hypothesis about the output is not met by [d/new]. *)
Example C69_elsewhere_case : ~ elsewhere home2 ["home"; "d"]%string (os_path "d/new").
Proof. exact inside_not_elsewhere. Qed.
