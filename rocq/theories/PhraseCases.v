(** The concrete runs of PropertiesPhrase. *)
From Coq Require Import List Arith NArith ZArith Ascii String Bool Lia.
From Verif Require Import Bytes Outcome IO Primitives Crypto Header Stream KeyModel EncDec.
From Verif Require Import Overwrite Hash FS Erase Archive Cli.
From Verif Require Import ToyEnv Fixtures EraseCases FSSpec ArchiveCases CliSpec CliCases PhraseSpec PhraseProofs.
Import ListNotations.
Local Open Scope nat_scope.
Local Open Scope list_scope.

(** A passphrase of three words. *)
Definition three : list (string * list string) :=
  [("input", ["a"]); ("output", ["new"]); ("autogenerate", ["3"])]%string.
Definition phrased : cli := after V0 CmdEncrypt three (start [] []).
(** ... typed in afterwards *)
Definition remembered (s : string) : cli :=
  mkCli (c_a phrased) [] [Some (list_byte_of_string s)] (c_out phrased).
Definition unkeyed : list (string * list string) :=
  [("input", ["new"]); ("output", ["out"]); ("force", [""])]%string.

Lemma phrase_back : exists c',
  run_command V0 CmdEncrypt (args three) (start [] []) = (Ok tt, phrased)
  /\ c_out phrased = [NPhrase "beta-beta-beta"]
  /\ at_place (disk phrased) ["home"; "a"]%string = None
  /\ run_command V0 CmdDecrypt (args unkeyed) (remembered "beta-beta-beta") = (Ok tt, c')
  /\ at_place (disk c') ["home"; "out"]%string = Some (SFile 2 (list_byte_of_string "secret")).
Proof.
  eexists. split; [apply ran; vm_compute; reflexivity|]. split; [vm_compute; reflexivity|].
  split; [vm_compute; reflexivity|].
  split; [apply ran; vm_compute; reflexivity|]. vm_compute. reflexivity.
Qed.

(** Another one does not do. *)
Lemma phrase_other : exists e c',
  run_command V0 CmdDecrypt (args unkeyed) (remembered "beta-beta-alpha") = (Err (CDecrypt e), c').
Proof. do 2 eexists. apply ran. vm_compute. reflexivity. Qed.

Lemma some_numbers :
  reads_as "-2147483648" (-2147483648) /\ reads_as "+007" 7
  /\ (forall n, ~ reads_as "2147483648" n) /\ (forall n, ~ reads_as "7x" n)
  /\ (forall n, ~ reads_as "" n) /\ (forall n, ~ reads_as "+-1" n).
Proof.
  split; [apply parse_exact; vm_compute; reflexivity|].
  split; [apply parse_exact; vm_compute; reflexivity|].
  split; [|split; [|split]]; intros n H; apply parse_exact in H; vm_compute in H; discriminate H.
Qed.
