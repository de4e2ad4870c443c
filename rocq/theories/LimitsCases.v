(** Packing and erasing a directory with two files where few may be open. *)
From Coq Require Import List Arith ZArith String Lia.
From Verif Require Import Bytes Outcome IO Primitives Crypto EncDec FS Erase Archive Cli FSSpec ArchiveSpec ToyEnv ArchiveCases EraseCases CliSpec CliCases CrashCases NamesCases Limits LimitsSpec.
Import ListNotations.
Local Open Scope string_scope.
Local Open Scope list_scope.

(** Only the directory itself is open besides the files. *)
Definition few (n : nat) : limits := mkLimits n (fun _ => 1).
Definition after_l (n : nat) (cmd : command) (l : list (string * list string)) (c : cli) : cli :=
  snd (run_command_l (few n) Vt cmd (args l) c).
Definition outcome_l (n : nat) (cmd : command) (l : list (string * list string)) (c : cli) :=
  fst (run_command_l (few n) Vt cmd (args l) c).
(** "volaris erase -f d" *)
Definition erasing1 : list (string * list string) := [("input", ["d"]); ("force", [""])].

Lemma two_files : files_in (with_name "y") ["home"; "d"] [["x"]; ["y"]].
Proof.
  split.
  - constructor; [intros [X|[]]; discriminate X|]. constructor; [intros []|constructor].
  - intros r [<-|[<-|[]]].
    + exists 3, (B "inner"). vm_compute. reflexivity.
    + exists 4, (B "other"). vm_compute. reflexivity.
Qed.
Lemma one_dir : dirs_with_files (with_name "y") (args packing4 "input") [(["home"; "d"], [["x"]; ["y"]])].
Proof. constructor; [|constructor]. split; [vm_compute; reflexivity|]. split; [vm_compute; reflexivity|exact two_files]. Qed.
(** "volaris pack -f -k k d ./d out" *)
Definition packing_twice : list (string * list string) :=
  [("input", ["d"; "./d"]); ("output", ["out"]); ("keyfile", ["k"]); ("force", [""])].
Lemma here_tree : tree_ok (with_name "y").
Proof. apply tree_okb_spec. vm_compute. reflexivity. Qed.

Lemma pack_three : outcome_l 3 CmdPack packing4 (at_name "y") = Err (CStorage StOpenRead)
  /\ at_place (disk (after_l 3 CmdPack packing4 (at_name "y"))) ["home"; "out"] = Some (SFile 2 []).
Proof. split; vm_compute; reflexivity. Qed.
Lemma pack_four : outcome_l 4 CmdPack packing4 (at_name "y") = Ok tt
  /\ found (disk (after_l 4 CmdPack packing4 (at_name "y"))) ["home"; "out"] <> Some 0.
Proof. split; vm_compute; [reflexivity|discriminate]. Qed.
Lemma pack_twice : map (fun n => outcome_l n CmdPack packing_twice (at_name "y")) [5; 6] = [Err (CStorage StOpenRead); Ok tt].
Proof. vm_compute. reflexivity. Qed.
Lemma pack_enough : (forall x, l_walk (few 23) x <= 10)
  /\ List.length (args packing4 "input") * (3 + List.length (s_nodes (disk (at_name "y")))) + 13 <= l_open (few 23)
  /\ outcome_l 23 CmdPack packing4 (at_name "y") = Ok tt.
Proof. split; [intros x; cbn; lia|]. split; [cbn; lia|vm_compute; reflexivity]. Qed.
Lemma erase_cases : outcome_l 1 CmdErase erasing1 (at_name "y") = Err (CEraseDir EdReadDirEntries)
  /\ at_place (disk (after_l 1 CmdErase erasing1 (at_name "y"))) ["home"; "d"; "x"] = Some (SFile 3 (B "inner"))
  /\ outcome_l 3 CmdErase erasing1 (at_name "y") = Ok tt
  /\ at_place (disk (after_l 3 CmdErase erasing1 (at_name "y"))) ["home"; "d"] = None.
Proof. split; [vm_compute; reflexivity|]. split; [vm_compute; reflexivity|]. split; vm_compute; reflexivity. Qed.
Lemma any_number_fails : exists L V g c c', no_faults (disk c) /\ tree_ok (disk c) /\ inodes_ok (disk c)
  /\ fst (run_command V CmdPack g c) = Ok tt
  /\ run_command_l L V CmdPack g c = (Err (CStorage StOpenRead), c')
  /\ at_place (disk c) ["home"; "out"] = Some (SFile 2 (B "old"))
  /\ at_place (disk c') ["home"; "out"] = Some (SFile 2 []).
Proof.
  exists (few 3), Vt, (args packing4), (at_name "y"), (after_l 3 CmdPack packing4 (at_name "y")).
  split; [split; reflexivity|]. split; [exact here_tree|].
  split; [apply inodes_okb_spec; vm_compute; reflexivity|].
  split; [vm_compute; reflexivity|].
  split. { unfold after_l. pose proof (proj1 pack_three) as F. unfold outcome_l in F.
    destruct (run_command_l (few 3) Vt CmdPack (args packing4) (at_name "y")) as [o c']. cbn [fst snd] in *. rewrite F. reflexivity. }
  split; vm_compute; reflexivity.
Qed.
