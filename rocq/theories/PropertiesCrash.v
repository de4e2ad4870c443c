(** Properties C107 and C108: commands that are killed, or that a loss of power ends.
    The definitions are in CrashSpec.v; the concrete runs are in CrashCases.v. *)
From Coq Require Import List Arith NArith ZArith String.
From Verif Require Import Bytes Outcome IO Primitives Crypto EncDec FS Archive Cli CliTools.
From Verif Require Import FSSpec ArchiveSpec CliSpec FreshSpec RestoreManySpec PackPathSpec CrashSpec CrashProofs CrashPack CrashExposed.
From Verif Require Import ToyEnv EraseCases CliCases PackPathCases CrashCases.
Import ListNotations.
Local Open Scope string_scope.
Local Open Scope nat_scope.
Local Open Scope list_scope.

(** C107: the log of changes tells everything a command does to files, so that the
    states a kill can leave are those after a part of the log. *)
Theorem C107_log_tells_all : forall V x c, alias_told V -> inodes_ok (disk c) ->
  told (disk c) (disk (path_run V x c)).
Proof. exact log_tells. Qed.
Print Assumptions C107_log_tells_all.

(** Whenever encrypt is killed, whatever fails before, the input is there with its
    content, or every file to be written is there as the finished run leaves it, and the
    run was about to succeed or to fail in erasing. *)
Theorem C107_encrypt_killed : forall V g c o c' input output i k, alias_told V -> inodes_ok (disk c) ->
  given g "input" input -> given g "output" output ->
  stat (disk c) (os_path input) = Some (NFile i) ->
  (forall t, In t (write_targets g output) -> stat (disk c) t <> Some (NFile i)) ->
  run_command V CmdEncrypt g c = (o, c') -> killed (disk c) (disk c') k ->
  still_there (disk c) k (os_path input) i
  \/ ((o = Ok tt \/ exists e, o = Err (CErase e))
      /\ forall t, In t (write_targets g output) -> as_finished (disk c) (disk c') k t).
Proof. exact encrypt_killed. Qed.
Print Assumptions C107_encrypt_killed.

(** So it is when decrypt is killed. *)
Theorem C107_decrypt_killed : forall V g c o c' input output i k, alias_told V -> ce_debug V = false ->
  inodes_ok (disk c) ->
  given g "input" input -> given g "output" output ->
  stat (disk c) (os_path input) = Some (NFile i) -> stat (disk c) (os_path output) <> Some (NFile i) ->
  run_command V CmdDecrypt g c = (o, c') -> killed (disk c) (disk c') k ->
  still_there (disk c) k (os_path input) i
  \/ ((o = Ok tt \/ exists e, o = Err (CErase e)) /\ as_finished (disk c) (disk c') k (os_path output)).
Proof. exact decrypt_killed. Qed.
Print Assumptions C107_decrypt_killed.

(** Without failures, a killed encrypt leaves the input, or files from which decrypt
    with the same key makes its content. *)
Theorem C107_nothing_lost : forall V g c o c' input output i k, alias_told V ->
  env_ok (ce_E V) -> no_faults (disk c) -> inodes_ok (disk c) ->
  given g "input" input -> given g "output" output ->
  stat (disk c) (os_path input) = Some (NFile i) ->
  (forall t, In t (write_targets g output) -> stat (disk c) t <> Some (NFile i)) ->
  (forall h, given g "header" h -> different (disk c) (os_path output) (os_path h)) ->
  run_command V CmdEncrypt g c = (o, c') -> killed (disk c) (disk c') k ->
  still_there (disk c) k (os_path input) i
  \/ exists raw, key_taken V CmdEncrypt g Validate c output raw
       /\ kept_encrypted V g output (disk c) k raw (s_data (disk c) i).
Proof. exact encrypt_killed_keeps. Qed.
Print Assumptions C107_nothing_lost.

(** A killed pack, whether it erases the directories afterwards or not, leaves them
    unchanged, or files from which unpack with the same key makes them. *)
Theorem C107_pack_killed : forall V g c o c' output dirs k, alias_told V ->
  env_ok (ce_E V) -> zip_ok (ce_Z V) ->
  tree_ok (disk c) -> no_faults (disk c) -> inodes_ok (disk c) ->
  given g "output" output -> to_pack g (disk c) output dirs ->
  run_command V CmdPack g c = (o, c') -> killed (disk c) (disk c') k ->
  Forall (fun d => unchanged_inside (disk c) (snd d) k) dirs \/ kept_packed V g c output k dirs.
Proof. exact pack_killed. Qed.
Print Assumptions C107_pack_killed.

(** That is false when power fails: nothing puts the output on the disk before the
    input is erased. *)
Theorem C107_power_lost_refuted : exists V g c c' k, alias_told V /\ no_faults (disk c) /\ inodes_ok (disk c)
  /\ given g "input" "a" /\ given g "output" "new"
  /\ at_place (disk c) ["home"; "a"] = Some (SFile 0 (B "secret"))
  /\ run_command V CmdEncrypt g c = (Ok tt, c')
  /\ power_lost (disk c) (disk c') k
  /\ at_place k ["home"; "a"] = None /\ s_data k 0 = [] /\ at_place k ["home"; "new"] = Some (SFile 10 []).
Proof. exact all_lost. Qed.
Print Assumptions C107_power_lost_refuted.

(** Killed after 0 to 6 changes: the lengths of the input and of the output. *)
Example C107_case :
  outcome_of Vt CmdEncrypt with_key (start [] []) = Ok tt
  /\ map (fun n => (found (cut_at n) ["home"; "a"], found (cut_at n) ["home"; "new"])) (seq 0 7)
     = [(Some 6, None); (Some 6, Some 0); (Some 6, Some 416); (Some 6, Some 438);
        (Some 0, Some 438); (Some 0, Some 438); (None, Some 438)].
Proof. exact stages_found. Qed.
Example C107_killed : forall n, killed home (disk finished) (cut_at n).
Proof. exact cut_killed. Qed.
Example C107_told : alias_told Vt.
Proof. exact Vt_told. Qed.
(** pack --erase of two directories, killed: the lengths of the files in them, of the
    output and of the header file. *)
Example C107_pack_case :
  outcome_of Vt CmdPack packing2 start2 = Ok tt
  /\ map (fun n => (found (pack_cut n) ["home"; "d"; "x"], found (pack_cut n) ["home"; "e"; "y"],
                    found (pack_cut n) ["home"; "out"], found (pack_cut n) ["home"; "h"]))
         [0; 2; 5; 6; 9; 10; 12; 14; 17]
     = [(Some 5, Some 5, Some 3, Some 4); (Some 5, Some 5, Some 0, Some 0); (Some 5, Some 5, Some 77, Some 0);
        (Some 5, Some 5, Some 77, Some 416); (Some 5, Some 5, Some 77, Some 416); (Some 0, Some 5, Some 77, Some 416);
        (None, Some 5, Some 77, Some 416); (None, Some 0, Some 77, Some 416); (None, None, Some 77, Some 416)].
Proof. exact pack_stages_found. Qed.
Example C107_pack_case_killed : forall n, killed home2 (disk packed2) (pack_cut n).
Proof. exact pack_cut_killed. Qed.
Example C107_pack_case_asked : to_pack (args packing2) home2 "out" dirs2.
Proof. exact to_pack_here. Qed.

(** C108 is false: pack leaves no plaintext behind when it ends, but when it is killed
    the archive of the directory stays in the directory for temporary files. *)
Theorem C108_archive_left_refuted : exists V g c c' k i l, alias_told V /\ no_faults (disk c) /\ inodes_ok (disk c)
  /\ run_command V CmdPack g c = (Ok tt, c') /\ killed (disk c) (disk c') k
  /\ at_place (disk c) ["tmp"; "tmpname"] = None /\ at_place (disk c') ["tmp"; "tmpname"] = None
  /\ at_place k ["tmp"; "tmpname"] = Some (SFile i l)
  /\ option_map (map (fun e => (zr_name e, zr_data e))) (z_decode (ce_Z V) l)
     = Some [("d/", []); ("d/x", B "inner")].
Proof. exact archive_left. Qed.
Print Assumptions C108_archive_left_refuted.

(** Every successful pack of directories as in C69 goes through such a state: killed
    there, it leaves a new file in the directory for temporary files, and in it the
    content of every file of the directories. *)
Theorem C108_every_pack : forall V g c c' output dirs, alias_told V ->
  env_ok (ce_E V) -> zip_ok (ce_Z V) ->
  tree_ok (disk c) -> no_faults (disk c) -> inodes_ok (disk c) ->
  given g "output" output -> to_pack g (disk c) output dirs ->
  run_command V CmdPack g c = (Ok tt, c') ->
  exists k name T i l es, killed (disk c) (disk c') k
    /\ resolve false (disk c) (path_push (s_tmp (disk c)) (mkPath false [Nm name])) = Some T
    /\ at_place (disk c) T = None /\ at_place k T = Some (SFile i l)
    /\ z_decode (ce_Z V) l = Some es
    /\ forall d rel j data, In d dirs -> at_place (disk c) (snd d ++ rel) = Some (SFile j data) ->
         exists e, In e es /\ zr_data e = data.
Proof. exact archive_exposed. Qed.
Print Assumptions C108_every_pack.

(** Two directories, killed after four changes. *)
Example C108_two_case :
  match at_place (pack_cut 4) ["tmp"; "tmpname"] with
  | Some (SFile i l) => option_map (map (fun e => (zr_name e, zr_data e))) (z_decode (ce_Z Vt) l)
  | _ => None
  end = Some [("d/", []); ("d/x", B "inner"); ("./e/", []); ("./e/y", B "other")].
Proof. vm_compute. reflexivity. Qed.

(** Killed later, after the archive is overwritten. *)
Example C108_case :
  at_place (redo (firstn 6 (s_log (disk packed_all))) home) ["tmp"; "tmpname"] = Some (SFile 10 (repeat x00 27)).
Proof. vm_compute. reflexivity. Qed.
