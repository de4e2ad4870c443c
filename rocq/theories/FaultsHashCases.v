(** The concrete runs of PropertiesFaultsHash. *)
From Coq Require Import List Arith NArith ZArith Ascii String Bool Lia.
From Verif Require Import Bytes Outcome IO Primitives Crypto Header Stream KeyModel EncDec.
From Verif Require Import Overwrite Hash FS Erase Archive Cli.
From Verif Require Import IOSpec ToyEnv Fixtures FileCases EraseCases FSSpec ArchiveSpec CliSpec CliCases.
From Verif Require Import ArchiveCases FaultsSpec FaultsCases.
Import ListNotations.
Local Open Scope nat_scope.
Local Open Scope string_scope.
Local Open Scope list_scope.

Definition of_two := args [("input", ["out"; "h"])].
Definition hashing (fs : list bool) (ps : list (list ev)) : outcome cli_error unit * list note :=
  let '(o, c') := run_command V0 CmdHash of_two (struck fs ps home) in (o, c_out c').
Definition hash_of (l : bytes) : string := hex_encode (ce_blake3 V0 l).

Lemma two_alike : exists V g c c' f1 f2 i1 i2 h, inodes_ok (disk c) /\ s_faults (disk c) = []
  /\ (exists k, s_plans (disk c) = [[]; [EvFull; EvShort k]])
  /\ g "input" = [f1; f2]
  /\ stat (disk c) (os_path f1) = Some (NFile i1) /\ stat (disk c) (os_path f2) = Some (NFile i2)
  /\ ce_blake3 V (s_data (disk c) i1) <> ce_blake3 V (s_data (disk c) i2)
  /\ run_command V CmdHash g c = (Ok tt, c')
  /\ c_out c' = c_out c ++ [NHash f1 h; NHash f2 h].
Proof.
  set (c := struck [] [[]; [EvFull; EvShort 2]] home).
  exists V0, of_two, c, (snd (run_command V0 CmdHash of_two c)), "out", "h", 2, 3, (hash_of (B "old")).
  split; [apply inodes_okb_spec; vm_compute; reflexivity|]. split; [reflexivity|].
  split; [eexists; reflexivity|].
  split; [reflexivity|]. split; [vm_compute; reflexivity|]. split; [vm_compute; reflexivity|].
  split; [vm_compute; discriminate|]. split; [apply pair_ok; vm_compute; reflexivity|].
  vm_compute. reflexivity.
Qed.
