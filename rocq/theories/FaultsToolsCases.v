(** The concrete runs of PropertiesFaultsTools. *)
From Coq Require Import List Arith NArith ZArith Ascii String Bool Lia.
From Verif Require Import Bytes Outcome IO Primitives Crypto Header Stream KeyModel EncDec KeyOps HeaderOps.
From Verif Require Import Overwrite Hash FS Erase Archive Cli CliTools.
From Verif Require Import IOSpec ToyEnv Fixtures FileCases EraseCases FSSpec ArchiveSpec CliSpec CliCases.
From Verif Require Import KeySpec ArchiveCases CliToolsSpec CliToolsCases FaultsSpec FaultsCases.
Import ListNotations.
Local Open Scope nat_scope.
Local Open Scope string_scope.
Local Open Scope list_scope.

(** The ninth call on the file "new" is the one that writes the header. *)
Definition cut (k : nat) : list (list ev) := [repeat EvFull 8 ++ [EvShort k]].
Definition add_h : key_tool := ToolAdd (Keyfile "k") (Keyfile "h") ha.
Definition two_keys_home : cli := snd (run_tool V0 "new" add_h (again enc_home [] [])).
(** Whether it says that it is done, and which of the two keys open the file then. *)
Definition told (t : key_tool) (fs : list bool) (ps : list (list ev)) (c : cli) :=
  let '(o, c') := run_tool V0 "new" t (struck fs ps (disk c)) in (o, fst (opens "k" c'), fst (opens "h" c')).

Lemma key_cut : exists V input t c c' k i, env_ok (ce_E V) /\ inodes_ok (disk c)
  /\ s_faults (disk c) = [] /\ s_plans (disk c) = [repeat EvFull 8 ++ [EvShort k]]
  /\ stat (disk c) (os_path input) = Some (NFile i)
  /\ (exists pw v, w_in v = dev_of (s_data (disk c) i) /\ w_out v = dev_of []
        /\ fst (decrypt_execute (ce_E V) false pw v) = Ok tt)
  /\ run_tool V input t c = (Ok tt, c')
  /\ forall pw v, w_in v = dev_of (s_data (disk c') i) ->
       fst (decrypt_execute (ce_E V) false pw v) = Err DecDeserializeHeader.
Proof.
  set (c := struck [] (cut 129) (disk enc_home)).
  exists V0, "new", add_h, c, (snd (run_tool V0 "new" add_h c)), 129, 10.
  split; [exact toy_ok|]. split; [apply inodes_okb_spec; vm_compute; reflexivity|]. split; [reflexivity|]. split; [reflexivity|].
  split; [vm_compute; reflexivity|].
  split.
  { exists (B "key"), (mkWorld (dev_of (s_data (disk c) 10)) (dev_of []) (dev_of []) no_rng []).
    split; [reflexivity|]. split; [reflexivity|]. vm_compute. reflexivity. }
  split; [apply pair_ok; vm_compute; reflexivity|].
  intros p [i o h g t] E. cbn [w_in] in E. subst i. vm_compute. reflexivity.
Qed.

Lemma deleted_opens : exists V input pw c c' k i, env_ok (ce_E V) /\ inodes_ok (disk c)
  /\ s_faults (disk c) = [] /\ s_plans (disk c) = [repeat EvFull 8 ++ [EvShort k]]
  /\ stat (disk c) (os_path input) = Some (NFile i)
  /\ supplies V c (ToolDelete (Keyfile "k")) (OpDelete pw)
  /\ run_tool V input (ToolDelete (Keyfile "k")) c = (Ok tt, c')
  /\ exists v, w_in v = dev_of (s_data (disk c') i) /\ w_out v = dev_of []
       /\ let r := decrypt_execute (ce_E V) false pw v in
          fst r = Ok tt /\ d_data (w_out (snd r)) = B "secret".
Proof.
  set (c := struck [] (cut 1) (disk two_keys_home)).
  exists V0, "new", (B "key"), c, (snd (run_tool V0 "new" (ToolDelete (Keyfile "k")) c)), 1, 10.
  split; [exact toy_ok|]. split; [apply inodes_okb_spec; vm_compute; reflexivity|].
  split; [reflexivity|]. split; [reflexivity|]. split; [vm_compute; reflexivity|].
  split.
  { cbn [supplies]. eexists.
    assert (E : s_data (disk c) 1 = B "key") by (vm_compute; reflexivity). rewrite <- E. apply (y_keyfile V0 c Direct "k" 1).
    - discriminate.
    - vm_compute. reflexivity.
    - rewrite E. discriminate. }
  split; [apply pair_ok; vm_compute; reflexivity|].
  exists (mkWorld (dev_of (s_data (disk (snd (run_tool V0 "new" (ToolDelete (Keyfile "k")) c))) 10)) (dev_of []) (dev_of [])
            no_rng []).
  split; [reflexivity|]. split; [reflexivity|]. vm_compute. split; reflexivity.
Qed.

Lemma keys_told :
  map (fun x => told add_h (fst x) (snd x) enc_home)
    [ ([], []); ([], cut 100); ([], [repeat EvFull 8 ++ [EvFail]]); ([], [repeat EvInt 2 ++ repeat EvFull 8]);
      ([false; false; true], []) ]
  = [ (Ok tt, Ok tt, Ok tt);
      (Ok tt, Ok tt, Err (CDecrypt DecDecryptMasterKey));
      (Err (TKey KHeaderWrite), Ok tt, Err (CDecrypt DecDecryptMasterKey));
      (Ok tt, Ok tt, Ok tt);
      (Err (TCli CKeyfile), Ok tt, Err (CDecrypt DecDecryptMasterKey)) ].
Proof. vm_compute. reflexivity. Qed.

(** The header of "new" is dumped to "hd", stripped, and restored. *)
Definition stripped : cli := snd (strip "new" (snd (dump "new" "hd" Prompt enc_home))).
Definition restoring (fs : list bool) (ps : list (list ev)) :=
  let '(o, c') := restore "hd" "new" (struck fs ps (disk stripped)) in (o, fst (opens "k" c')).
Definition stripping (fs : list bool) (ps : list (list ev)) :=
  let '(o, c') := strip "new" (struck fs ps (disk enc_home)) in
  (o, firstn 8 (s_data (disk c') 10), List.length (s_data (disk c') 10)).
Lemma headers_told :
  map (fun x => restoring (fst x) (snd x))
    [ ([], []); ([], [[]; [EvFull; EvFull; EvShort 100]]); ([], [[]; [EvFull; EvFull; EvFail]]);
      ([], [[EvInt]; [EvFull; EvFull; EvFull; EvFail]]) ]
  = [ (Ok tt, Ok tt); (Ok tt, Err (CDecrypt DecDecryptMasterKey));
      (Err (THop HopWrite), Err (CDecrypt DecDeserializeHeader)); (Ok tt, Ok tt) ].
Proof. vm_compute. reflexivity. Qed.
Lemma strips_told :
  map (fun x => stripping (fst x) (snd x))
    [ ([], [repeat EvFull 4 ++ [EvShort 3; EvInt; EvShort 100]]);
      ([], [repeat EvFull 4 ++ [EvShort 3; EvFail]]);
      ([], [repeat EvFull 3 ++ [EvFail]]) ]
  = [ (Ok tt, zeros 8, 438);
      (Err (THop HopWrite), zeros 3 ++ skipn 3 (firstn 8 (s_data (disk enc_home) 10)), 438);
      (Err (THop HopRewind), firstn 8 (s_data (disk enc_home) 10), 438) ].
Proof. vm_compute. reflexivity. Qed.

(** The states of the cases satisfy the premises. *)
Lemma tools_applies :
  let c := struck [] [repeat EvInt 2 ++ repeat EvFull 8] (disk enc_home) in
  all_or_nothing (disk c)
  /\ all_or_nothing (disk (struck [] [[EvInt]; [EvFull; EvFull; EvFull; EvFail]] (disk stripped))).
Proof.
  cbv zeta. unfold all_or_nothing, struck. cbn [disk c_a fst s_plans repeat app].
  split; repeat (apply Forall_cons || apply Forall_nil); intros k X; cbn [In] in X;
    repeat (destruct X as [X|X]; [discriminate X|]); exact X.
Qed.

(** Only a part of the header is dumped, and then it is stripped. *)
Lemma dump_cut : exists input output c c1 c2 c3 k i e, inodes_ok (disk c)
  /\ s_faults (disk c) = [] /\ s_plans (disk c) = [[]; [EvShort k]]
  /\ stat (disk c) (os_path input) = Some (NFile i) /\ stat (disk c) (os_path output) = None
  /\ dump input output Prompt c = (Ok tt, c1)
  /\ strip input c1 = (Ok tt, c2)
  /\ restore output input c2 = (Err e, c3)
  /\ firstn 416 (s_data (disk c) i) <> zeros 416
  /\ firstn 416 (s_data (disk c3) i) = zeros 416.
Proof.
  set (c := struck [] [[]; [EvShort 100]] (disk enc_home)).
  exists "new", "hd", c, (snd (dump "new" "hd" Prompt c)), (snd (strip "new" (snd (dump "new" "hd" Prompt c)))).
  exists (snd (restore "hd" "new" (snd (strip "new" (snd (dump "new" "hd" Prompt c)))))), 100, 10, (THop HopInvalidFile).
  split; [apply inodes_okb_spec; vm_compute; reflexivity|]. split; [reflexivity|]. split; [reflexivity|].
  split; [vm_compute; reflexivity|]. split; [vm_compute; reflexivity|].
  split; [apply pair_ok; vm_compute; reflexivity|]. split; [apply pair_ok; vm_compute; reflexivity|].
  split; [apply pair_ok; vm_compute; reflexivity|]. split; [vm_compute; discriminate|vm_compute; reflexivity].
Qed.
Definition dumping (fs : list bool) (ps : list (list ev)) : outcome tool_error unit * option nat :=
  let '(o, c') := dump "new" "hd" Prompt (struck fs ps (disk enc_home)) in (o, size_at (disk c') "hd").
Lemma dumps_told :
  map (fun x => dumping (fst x) (snd x))
    [ ([], []); ([], [[]; [EvShort 100]]); ([], [[EvInt; EvFull; EvFull; EvInt]; []]); ([], [[]; [EvFail]]) ]
  = [ (Ok tt, Some 416); (Ok tt, Some 100); (Ok tt, Some 416); (Err (THop HopWrite), Some 0) ].
Proof. vm_compute. reflexivity. Qed.
