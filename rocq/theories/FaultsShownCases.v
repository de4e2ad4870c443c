(** The concrete runs of PropertiesFaultsShown. *)
From Coq Require Import List Arith NArith ZArith Ascii String Bool Lia.
From Verif Require Import Bytes Outcome IO Primitives Crypto Header Stream KeyModel EncDec.
From Verif Require Import Overwrite Hash FS Erase Archive Cli.
From Verif Require Import IOSpec ToyEnv Fixtures FileCases EraseCases FSSpec ArchiveSpec CliSpec CliCases.
From Verif Require Import ArchiveCases ReportSpec FaultsSpec FaultsCases.
Import ListNotations.
Local Open Scope nat_scope.
Local Open Scope string_scope.
Local Open Scope list_scope.

(** Encrypting "a" to "new" with --hash: the outcome, the hashes shown, that of "new" as it is
    left, and the sizes of the files. *)
Definition enc_show : list (string * list string) := to_new ++ [("hash", [""])].
Definition shown (fs : list bool) (ps : list (list ev)) :=
  let '(o, c') := run_command V0 CmdEncrypt (args enc_show) (struck fs ps home) in
  (o, map snd (hashes_in (c_out c')),
   match at_place (disk c') ["home"; "new"] with Some (SFile _ l) => hex_encode (ce_blake3 V0 l) | _ => "" end,
   (size_at (disk c') "a", size_at (disk c') "new")).

Lemma shown_cut : exists V g c c' output q j ct h, inodes_ok (disk c) /\ s_faults (disk c) = []
  /\ (exists k, s_plans (disk c) = [[]; []; []; [EvFull; EvShort k]])
  /\ given g "output" output /\ run_command V CmdEncrypt g c = (Ok tt, c')
  /\ resolve true (disk c) (os_path output) = Some q /\ at_place (disk c') q = Some (SFile j ct)
  /\ c_out c' = c_out c ++ [NHash output h] /\ h <> hex_encode (ce_blake3 V ct).
Proof.
  set (c := struck [] [[]; []; []; [EvFull; EvShort 0]] home).
  exists V0, (args enc_show), c, (snd (run_command V0 CmdEncrypt (args enc_show) c)), "new", ["home"; "new"], 10,
    (s_data (disk (snd (run_command V0 CmdEncrypt (args enc_show) c))) 10), "de".
  split; [apply inodes_okb_spec; vm_compute; reflexivity|]. split; [reflexivity|].
  split; [eexists; reflexivity|]. split; [eexists; reflexivity|].
  split; [apply pair_ok; vm_compute; reflexivity|]. split; [vm_compute; reflexivity|].
  split; [vm_compute; reflexivity|]. split; [vm_compute; reflexivity|]. vm_compute. discriminate.
Qed.
