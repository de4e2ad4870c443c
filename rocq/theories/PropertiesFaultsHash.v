(** C118: every hash that is printed is that of the file, whatever fails. *)
From Coq Require Import List Arith NArith ZArith Ascii String Bool Lia.
From Verif Require Import Bytes Outcome IO Primitives Crypto Header Stream KeyModel EncDec.
From Verif Require Import Overwrite Hash FS Erase Archive Cli.
From Verif Require Import IOSpec ToyEnv Fixtures FileCases EraseCases FSSpec ArchiveSpec CliSpec CliCases.
From Verif Require Import FaultsSpec FaultsCases FaultsHash FaultsHashCases.
Import ListNotations.
Local Open Scope nat_scope.
Local Open Scope string_scope.
Local Open Scope list_scope.

(** One read that returns less than there is: two files with different hashes are printed
    with the same one, and the command reports success. *)
Theorem C118_two_alike_refuted : exists V g c c' f1 f2 i1 i2 h, inodes_ok (disk c) /\ s_faults (disk c) = []
  /\ (exists k, s_plans (disk c) = [[]; [EvFull; EvShort k]])
  /\ g "input" = [f1; f2]
  /\ stat (disk c) (os_path f1) = Some (NFile i1) /\ stat (disk c) (os_path f2) = Some (NFile i2)
  /\ ce_blake3 V (s_data (disk c) i1) <> ce_blake3 V (s_data (disk c) i2)
  /\ run_command V CmdHash g c = (Ok tt, c')
  /\ c_out c' = c_out c ++ [NHash f1 h; NHash f2 h].
Proof. exact two_alike. Qed.
Print Assumptions C118_two_alike_refuted.

(** What holds: any calls may fail and be interrupted, if those that succeed are not done
    in part.  Then the command prints the hashes of the first files, each that of the whole
    file, and reports success exactly if these are all. *)
Theorem C118_printed_partial : forall V g c o c', g "input" <> [] -> all_or_nothing (disk c) ->
  run_command V CmdHash g c = (o, c') ->
  exists ds rest is, g "input" = ds ++ rest
    /\ Forall2 (fun f i => stat (disk c) (os_path f) = Some (NFile i)) ds is
    /\ c_out c' = c_out c ++ map (fun fi => NHash (fst fi) (hex_encode (ce_blake3 V (s_data (disk c) (snd fi)))))
                                 (combine ds is)
    /\ (o = Ok tt <-> rest = []).
Proof. exact hash_cmd_an. Qed.
Print Assumptions C118_printed_partial.

(** Nothing fails; the second file cannot be opened, or read; the first cannot be opened. *)
Example C118_case :
  hashing [] [] = (Ok tt, [NHash "out" (hash_of (B "old")); NHash "h" (hash_of (B "oldh"))])
  /\ hashing [false; true] [] = (Err CHashOpen, [NHash "out" (hash_of (B "old"))])
  /\ hashing [] [[]; [EvFull; EvFail]] = (Err (CHash HashReadData), [NHash "out" (hash_of (B "old"))])
  /\ hashing [] [[EvFull; EvInt]] = (Err (CHash HashReadData), [])
  /\ hashing [true] [] = (Err CHashOpen, []).
Proof. repeat split; vm_compute; reflexivity. Qed.
Example C118_case_short :
  hashing [] [[]; [EvFull; EvShort 2]] = (Ok tt, [NHash "out" (hash_of (B "old")); NHash "h" (hash_of (B "old"))])
  /\ hash_of (B "old") <> hash_of (B "oldh").
Proof. split; [vm_compute; reflexivity|vm_compute; discriminate]. Qed.
Example C118_case_applies : of_two "input" <> []
  /\ all_or_nothing (disk (struck [false; true] [[EvFull; EvInt]; [EvFail]] home)).
Proof. split; [discriminate|]. repeat constructor; intros k X; cbn in X; intuition discriminate. Qed.
