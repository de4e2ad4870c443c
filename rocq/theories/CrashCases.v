(** Runs that are cut off: examples. *)
From Coq Require Import List Arith NArith ZArith String.
From Verif Require Import Bytes Outcome IO Primitives Crypto Header EncDec FS Archive Cli.
From Verif Require Import ToyEnv Fixtures FSSpec ArchiveSpec ArchiveCases CliSpec CliCases EraseCases PackPathCases CrashSpec.
Import ListNotations.
Local Open Scope string_scope.
Local Open Scope nat_scope.
Local Open Scope list_scope.

(** Files open twice stay as they are. *)
Definition told_alias (a : asys) : alias_result := mkAlias (Err tt) (s_data (fst a)) [] noise [].
Definition Vt := V None 1%N told_alias.
Lemma Vt_told : alias_told Vt.
Proof.
  intros ws a. exists []. repeat split.
  - intros j. cbn. destruct (existsb _ ws); reflexivity.
  - cbn. rewrite app_nil_r. reflexivity.
Qed.

(** "volaris encrypt -k k a new" *)
Definition with_key : list (string * list string) := [("input", ["a"]); ("output", ["new"]); ("keyfile", ["k"])].
Definition finished : cli := after Vt CmdEncrypt with_key (start [] []).
(** After [n] changes. *)
Definition cut_at (n : nat) : sys := redo (firstn n (s_log (disk finished))) home.

Lemma cut_killed : forall n, killed home (disk finished) (cut_at n).
Proof.
  intros n. exists (s_log (disk finished)), (s_log (disk finished)), (firstn n (s_log (disk finished))).
  split; [reflexivity|]. split; [constructor|]. split; [|reflexivity].
  rewrite <- (firstn_skipn n (s_log (disk finished))) at 1. constructor.
Qed.

(** What is left of the input and of the output. *)
Definition found (s : sys) (p : cpath) : option nat :=
  match at_place s p with Some (SFile _ l) => Some (List.length l) | _ => None end.
Lemma stages_found :
  outcome_of Vt CmdEncrypt with_key (start [] []) = Ok tt
  /\ map (fun n => (found (cut_at n) ["home"; "a"], found (cut_at n) ["home"; "new"])) (seq 0 7)
     = [(Some 6, None); (Some 6, Some 0); (Some 6, Some 416); (Some 6, Some 438);
        (Some 0, Some 438); (Some 0, Some 438); (None, Some 438)].
Proof. split; vm_compute; reflexivity. Qed.

(** Power fails after encrypting: the names are on the disk, the content is not. *)
Definition dark : sys :=
  redo (filter (fun e => match e with FWrite _ _ _ => false | _ => true end) (s_log (disk finished))) home.
Lemma dark_lost : power_lost home (disk finished) dark.
Proof.
  exists (s_log (disk finished)).
  exists (filter (fun e => match e with FWrite _ _ _ => false | _ => true end) (s_log (disk finished))).
  split; [reflexivity|]. split; [|reflexivity].
  generalize (s_log (disk finished)). induction l as [|e l IH]; [constructor|]. destruct e; cbn; constructor; exact IH.
Qed.
Lemma all_lost : exists V g c c' k, alias_told V /\ no_faults (disk c) /\ inodes_ok (disk c)
  /\ given g "input" "a" /\ given g "output" "new"
  /\ at_place (disk c) ["home"; "a"] = Some (SFile 0 (B "secret"))
  /\ run_command V CmdEncrypt g c = (Ok tt, c')
  /\ power_lost (disk c) (disk c') k
  /\ at_place k ["home"; "a"] = None /\ s_data k 0 = [] /\ at_place k ["home"; "new"] = Some (SFile 10 []).
Proof.
  exists Vt, (args with_key), (start [] []), finished, dark.
  split; [exact Vt_told|]. split; [apply home_calm|]. split; [exact home_inodes|].
  split; [exists []; reflexivity|]. split; [exists []; reflexivity|]. split; [reflexivity|].
  split; [apply ran; vm_compute; reflexivity|]. split; [exact dark_lost|].
  split; [|split]; vm_compute; reflexivity.
Qed.

(** "volaris pack -f -k k d out", killed while encrypting the archive. *)
Definition packing : list (string * list string) :=
  [("input", ["d"]); ("output", ["out"]); ("keyfile", ["k"]); ("force", [""])].
Definition packed_all : cli := after Vt CmdPack packing (start [] []).
Lemma archive_left : exists V g c c' k i l, alias_told V /\ no_faults (disk c) /\ inodes_ok (disk c)
  /\ run_command V CmdPack g c = (Ok tt, c') /\ killed (disk c) (disk c') k
  /\ at_place (disk c) ["tmp"; "tmpname"] = None /\ at_place (disk c') ["tmp"; "tmpname"] = None
  /\ at_place k ["tmp"; "tmpname"] = Some (SFile i l)
  /\ option_map (map (fun e => (zr_name e, zr_data e))) (z_decode (ce_Z V) l)
     = Some [("d/", []); ("d/x", B "inner")].
Proof.
  exists Vt, (args packing), (start [] []), packed_all, (redo (firstn 3 (s_log (disk packed_all))) home). eexists. eexists.
  split; [exact Vt_told|]. split; [apply home_calm|]. split; [exact home_inodes|].
  split; [apply ran; vm_compute; reflexivity|]. split.
  { exists (s_log (disk packed_all)), (s_log (disk packed_all)), (firstn 3 (s_log (disk packed_all))).
    split; [reflexivity|]. split; [constructor|]. split; [|reflexivity].
    rewrite <- (firstn_skipn 3 (s_log (disk packed_all))) at 1. constructor. }
  split; [vm_compute; reflexivity|]. split; [vm_compute; reflexivity|]. split; [vm_compute; reflexivity|].
  vm_compute. reflexivity.
Qed.

(** "volaris pack -f --erase --header h -k k d ./e out", killed after [n] changes. *)
Definition packed2 : cli := after Vt CmdPack packing2 start2.
Definition pack_cut (n : nat) : sys := redo (firstn n (s_log (disk packed2))) home2.
Lemma pack_cut_killed : forall n, killed home2 (disk packed2) (pack_cut n).
Proof.
  intros n. exists (s_log (disk packed2)), (s_log (disk packed2)), (firstn n (s_log (disk packed2))).
  split; [reflexivity|]. split; [constructor|]. split; [|reflexivity].
  rewrite <- (firstn_skipn n (s_log (disk packed2))) at 1. constructor.
Qed.
Lemma pack_stages_found :
  outcome_of Vt CmdPack packing2 start2 = Ok tt
  /\ map (fun n => (found (pack_cut n) ["home"; "d"; "x"], found (pack_cut n) ["home"; "e"; "y"],
                    found (pack_cut n) ["home"; "out"], found (pack_cut n) ["home"; "h"]))
         [0; 2; 5; 6; 9; 10; 12; 14; 17]
     = [(Some 5, Some 5, Some 3, Some 4); (Some 5, Some 5, Some 0, Some 0); (Some 5, Some 5, Some 77, Some 0);
        (Some 5, Some 5, Some 77, Some 416); (Some 5, Some 5, Some 77, Some 416); (Some 0, Some 5, Some 77, Some 416);
        (None, Some 5, Some 77, Some 416); (None, Some 0, Some 77, Some 416); (None, None, Some 77, Some 416)].
Proof. split; vm_compute; reflexivity. Qed.
