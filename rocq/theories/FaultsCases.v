(** The concrete runs of PropertiesFaults. *)
From Coq Require Import List Arith NArith ZArith Ascii String Bool Lia.
From Verif Require Import Bytes Outcome IO Primitives Crypto Header Stream KeyModel EncDec KeyOps HeaderOps.
From Verif Require Import Overwrite Hash FS Erase Archive Cli CliTools.
From Verif Require Import IOSpec ToyEnv Fixtures FileCases EraseCases FSSpec ArchiveSpec CliSpec CliCases FaultsSpec.
Import ListNotations.
Local Open Scope nat_scope.
Local Open Scope string_scope.
Local Open Scope list_scope.

(** [fs]: which calls on the file system fail.  [ps]: how the files opened behave: the
    input, the key, the output, then the input again for erasing it. *)
Definition struck (fs : list bool) (ps : list (list ev)) (s : sys) : cli :=
  mkCli (mkSys (s_nodes s) (s_data s) (s_next s) (s_cwd s) (s_tmp s) fs ps (s_rng s) (s_log s), []) [] [] [].
Definition size_at (s : sys) (n : string) : option nat :=
  match at_place s ["home"; n] with Some (SFile _ l) => Some (List.length l) | _ => None end.
Definition encrypting (fs : list bool) (ps : list (list ev)) : outcome cli_error unit * (option nat * option nat) :=
  let c' := after V0 CmdEncrypt to_new (struck fs ps home) in
  (outcome_of V0 CmdEncrypt to_new (struck fs ps home), (size_at (disk c') "a", size_at (disk c') "new")).
Definition decrypting (fs : list bool) (ps : list (list ev)) : outcome cli_error unit * (option nat * option nat) :=
  let c := struck fs ps (disk encrypted_home) in
  let c' := after V0 CmdDecrypt (from_new "k" "back") c in
  (outcome_of V0 CmdDecrypt (from_new "k" "back") c, (size_at (disk c') "new", size_at (disk c') "back")).
(** The same with the header in a file of its own. *)
Definition decrypting_h (fs : list bool) (ps : list (list ev)) : outcome cli_error unit * (option nat * option nat) :=
  let c := struck fs ps (disk (after V0 CmdEncrypt (to_new ++ [("header", ["nh"])]) (start [] []))) in
  let c' := after V0 CmdDecrypt (from_new "k" "back" ++ [("header", ["nh"])]) c in
  (outcome_of V0 CmdDecrypt (from_new "k" "back" ++ [("header", ["nh"])]) c,
   (size_at (disk c') "new", size_at (disk c') "back")).

Lemma half_encrypted : exists V g c c1 c2 k, env_ok (ce_E V) /\ inodes_ok (disk c)
  /\ s_faults (disk c) = [] /\ s_plans (disk c) = [[EvFull; EvShort k]]
  /\ at_place (disk c) ["home"; "a"] = Some (SFile 0 (B "secret"))
  /\ given g "input" "a" /\ given g "output" "new"
  /\ run_command V CmdEncrypt g c = (Ok tt, c1)
  /\ at_place (disk c1) ["home"; "a"] = None
  /\ run_command V CmdDecrypt (args (from_new "k" "back")) c1 = (Ok tt, c2)
  /\ exists i, at_place (disk c2) ["home"; "back"] = Some (SFile i (B "sec")).
Proof.
  exists V0, (args to_new), (struck [] [[EvFull; EvShort 2]] home). eexists. eexists. exists 2.
  split; [exact toy_ok|]. split; [exact home_inodes|]. split; [reflexivity|]. split; [reflexivity|].
  split; [reflexivity|]. split; [eexists; reflexivity|]. split; [eexists; reflexivity|].
  split; [apply ran; vm_compute; reflexivity|]. split; [vm_compute; reflexivity|].
  split; [apply ran; vm_compute; reflexivity|]. exists 11. vm_compute. reflexivity.
Qed.

Lemma header_cut : exists V g c c1 i l, env_ok (ce_E V) /\ inodes_ok (disk c)
  /\ s_faults (disk c) = [] /\ at_place (disk c) ["home"; "a"] = Some (SFile 0 (B "secret"))
  /\ given g "input" "a" /\ given g "output" "new"
  /\ run_command V CmdEncrypt g c = (Ok tt, c1)
  /\ at_place (disk c1) ["home"; "a"] = None
  /\ at_place (disk c1) ["home"; "new"] = Some (SFile i l)
  /\ forall pw v, w_in v = dev_of l -> fst (decrypt_execute (ce_E V) false pw v) = Err DecDeserializeHeader.
Proof.
  exists V0, (args to_new), (struck [] [[]; []; [EvFull; EvShort 100]] home). eexists. eexists. eexists.
  split; [exact toy_ok|]. split; [exact home_inodes|]. split; [reflexivity|].
  split; [reflexivity|]. split; [eexists; reflexivity|]. split; [eexists; reflexivity|].
  split; [apply ran; vm_compute; reflexivity|]. split; [vm_compute; reflexivity|].
  split; [vm_compute; reflexivity|].
  intros pw [i o h g t] E. cbn [w_in] in E. subst i. vm_compute. reflexivity.
Qed.

Lemma failures_told :
  map (fun x => encrypting (fst x) (snd x))
    [ ([], [[EvFull; EvInt]]);
      ([], [[]; []; [EvFull; EvFull; EvFail]]);
      ([], [[]; []; [EvFull; EvFull; EvInt]]);
      ([false; false; false; false; true], []);
      ([], [[]; []; []; []; [EvFull; EvFail]]);
      ([false; false; false; false; false; false; false; true], []) ]
  = [ (Err (CEncrypt EncEncryptFile), (Some 6, Some 416));
      (Err (CEncrypt EncEncryptFile), (Some 6, Some 416));
      (Ok tt, (None, Some 438));
      (Err (CStorage StOpenRead), (Some 6, Some 438));
      (Err (CErase (EraOverwrite OwFlushFile)), (Some 0, Some 438));
      (Err (CErase EraRemoveFile), (Some 0, Some 438)) ].
Proof. vm_compute. reflexivity. Qed.
Lemma decrypt_failures_told :
  map (fun x => decrypting (fst x) (snd x))
    [ ([], [[EvInt; EvFull; EvFail]]);
      ([], [[]; []; [EvFail]]);
      ([], [[]; []; [EvInt; EvInt]]);
      ([], [[]; []; []; []; [EvFull; EvFail]]) ]
  = [ (Err (CDecrypt DecDeserializeHeader), (Some 438, Some 0));
      (Err (CDecrypt DecDecryptData), (Some 438, Some 0));
      (Ok tt, (None, Some 6));
      (Err (CErase (EraOverwrite OwFlushFile)), (Some 0, Some 6)) ].
Proof. vm_compute. reflexivity. Qed.
Lemma header_failures_told :
  map (fun x => decrypting_h (fst x) (snd x))
    [ ([], [[EvInt; EvFull; EvFail]]);
      ([], [[]; [EvFail]]);
      ([], [[]; [EvInt; EvInt]]);
      ([], [[]; []; []; [EvFail]]);
      ([], [[]; []; []; []; []; [EvFull; EvFail]]) ]
  = [ (Err (CDecrypt DecReadEncryptedData), (Some 22, Some 0));
      (Err (CDecrypt DecDeserializeHeader), (Some 22, Some 0));
      (Ok tt, (None, Some 6));
      (Err (CDecrypt DecDecryptData), (Some 22, Some 0));
      (Err (CErase (EraOverwrite OwFlushFile)), (Some 0, Some 6)) ].
Proof. vm_compute. reflexivity. Qed.
