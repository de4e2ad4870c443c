(** C117: a key or header command that reports success has done its work, whatever fails. *)
From Coq Require Import List Arith NArith ZArith Ascii String Bool Lia.
From Verif Require Import Bytes Outcome IO Primitives Crypto Header Stream KeyModel EncDec KeyOps HeaderOps.
From Verif Require Import Overwrite Hash FS Erase Archive Cli CliTools.
From Verif Require Import IOSpec ToyEnv Fixtures FileCases EraseCases FSSpec ArchiveSpec CliSpec CliCases.
From Verif Require Import KeySpec CliToolsSpec CliToolsCases FaultsSpec FaultsCases FaultsTools FaultsDump FaultsToolsCases.
Import ListNotations.
Local Open Scope nat_scope.
Local Open Scope string_scope.
Local Open Scope list_scope.

(** One write that takes only a part of the header: the command reports success, and no
    password decrypts the file any more. *)
Theorem C117_key_cut_refuted : exists V input t c c' k i, env_ok (ce_E V) /\ inodes_ok (disk c)
  /\ s_faults (disk c) = [] /\ s_plans (disk c) = [repeat EvFull 8 ++ [EvShort k]]
  /\ stat (disk c) (os_path input) = Some (NFile i)
  /\ (exists pw v, w_in v = dev_of (s_data (disk c) i) /\ w_out v = dev_of []
        /\ fst (decrypt_execute (ce_E V) false pw v) = Ok tt)
  /\ run_tool V input t c = (Ok tt, c')
  /\ forall pw v, w_in v = dev_of (s_data (disk c') i) ->
       fst (decrypt_execute (ce_E V) false pw v) = Err DecDeserializeHeader.
Proof. exact key_cut. Qed.
Print Assumptions C117_key_cut_refuted.

(** ... or a key that is reported to be deleted still opens it. *)
Theorem C117_deleted_opens_refuted : exists V input pw c c' k i, env_ok (ce_E V) /\ inodes_ok (disk c)
  /\ s_faults (disk c) = [] /\ s_plans (disk c) = [repeat EvFull 8 ++ [EvShort k]]
  /\ stat (disk c) (os_path input) = Some (NFile i)
  /\ supplies V c (ToolDelete (Keyfile "k")) (OpDelete pw)
  /\ run_tool V input (ToolDelete (Keyfile "k")) c = (Ok tt, c')
  /\ exists v, w_in v = dev_of (s_data (disk c') i) /\ w_out v = dev_of []
       /\ let r := decrypt_execute (ce_E V) false pw v in
          fst r = Ok tt /\ d_data (w_out (snd r)) = B "secret".
Proof. exact deleted_opens. Qed.
Print Assumptions C117_deleted_opens_refuted.

(** ... or a header is reported to be dumped of which only a part is in the file, so that
    stripping it from the encrypted file loses it. *)
Theorem C117_dump_cut_refuted : exists input output c c1 c2 c3 k i e, inodes_ok (disk c)
  /\ s_faults (disk c) = [] /\ s_plans (disk c) = [[]; [EvShort k]]
  /\ stat (disk c) (os_path input) = Some (NFile i) /\ stat (disk c) (os_path output) = None
  /\ dump input output Prompt c = (Ok tt, c1)
  /\ strip input c1 = (Ok tt, c2)
  /\ restore output input c2 = (Err e, c3)
  /\ firstn 416 (s_data (disk c) i) <> zeros 416
  /\ firstn 416 (s_data (disk c3) i) = zeros 416.
Proof. exact dump_cut. Qed.
Print Assumptions C117_dump_cut_refuted.

(** What holds: any calls may fail and be interrupted, if those that succeed are not done
    in part.  Then a key command that reports success has used the keys supplied, and left
    in the file what it would have left without failures. *)
Theorem C117_key_done_partial : forall V input t c c', env_ok (ce_E V) -> all_or_nothing (disk c) ->
  run_tool V input t c = (Ok tt, c') ->
  exists i op, stat (disk c) (os_path input) = Some (NFile i) /\ supplies V c t op
    /\ run_on (ce_E V) (op, s_rng (disk c)) (s_data (disk c) i) = (Ok tt, s_data (disk c') i).
Proof. exact tool_done. Qed.
Print Assumptions C117_key_done_partial.

(** The same for dumping a header: the output is all of it. *)
Theorem C117_dump_done_partial : forall input output force c c', inodes_ok (disk c) -> all_or_nothing (disk c) ->
  dump input output force c = (Ok tt, c') ->
  exists i j h aad b, stat (disk c) (os_path input) = Some (NFile i) /\ stat (disk c') (os_path output) = Some (NFile j)
    /\ i <> j /\ header_is (s_data (disk c) i) h aad /\ serialize h = Ok b /\ s_data (disk c') j = b.
Proof. exact dump_done. Qed.
Print Assumptions C117_dump_done_partial.

(** The same for restoring a header: all of it is in the file, and nothing but zeros was
    there. *)
Theorem C117_restore_done_partial : forall input output c c', all_or_nothing (disk c) ->
  restore input output c = (Ok tt, c') ->
  exists i j h aad b, stat (disk c) (os_path input) = Some (NFile i) /\ stat (disk c) (os_path output) = Some (NFile j)
    /\ header_is (s_data (disk c) i) h aad /\ serialize h = Ok b
    /\ s_data (disk c') j = b ++ skipn (List.length b) (s_data (disk c) j)
    /\ firstn (List.length b) (s_data (disk c) j)
       = zeros (List.length (firstn (List.length b) (s_data (disk c) j))).
Proof. exact restore_done. Qed.
Print Assumptions C117_restore_done_partial.

(** Stripping a header writes until all of it is written, so that here calls may also be
    done in part. *)
Theorem C117_strip_done_partial : forall input c c', strip input c = (Ok tt, c') ->
  exists i h aad, stat (disk c) (os_path input) = Some (NFile i) /\ header_is (s_data (disk c) i) h aad
    /\ let n := get_size (version_of h) in s_data (disk c') i = zeros n ++ skipn n (s_data (disk c) i).
Proof. exact strip_done. Qed.
Print Assumptions C117_strip_done_partial.

(** What is reported when the key in "h" is added, and whether "k" and "h" open the file
    then: without failures; with a part of the header written (the key is lost); with the
    write failing; with two calls interrupted; with the new key unreadable. *)
Example C117_key_case :
  map (fun x => told add_h (fst x) (snd x) enc_home)
    [ ([], []); ([], cut 100); ([], [repeat EvFull 8 ++ [EvFail]]); ([], [repeat EvInt 2 ++ repeat EvFull 8]);
      ([false; false; true], []) ]
  = [ (Ok tt, Ok tt, Ok tt);
      (Ok tt, Ok tt, Err (CDecrypt DecDecryptMasterKey));
      (Err (TKey KHeaderWrite), Ok tt, Err (CDecrypt DecDecryptMasterKey));
      (Ok tt, Ok tt, Ok tt);
      (Err (TCli CKeyfile), Ok tt, Err (CDecrypt DecDecryptMasterKey)) ].
Proof. exact keys_told. Qed.
(** What is reported, and how many bytes of the header are in the file. *)
Example C117_dump_case :
  map (fun x => dumping (fst x) (snd x))
    [ ([], []); ([], [[]; [EvShort 100]]); ([], [[EvInt; EvFull; EvFull; EvInt]; []]); ([], [[]; [EvFail]]) ]
  = [ (Ok tt, Some 416); (Ok tt, Some 100); (Ok tt, Some 416); (Err (THop HopWrite), Some 0) ].
Proof. exact dumps_told. Qed.
Example C117_restore_case :
  map (fun x => restoring (fst x) (snd x))
    [ ([], []); ([], [[]; [EvFull; EvFull; EvShort 100]]); ([], [[]; [EvFull; EvFull; EvFail]]);
      ([], [[EvInt]; [EvFull; EvFull; EvFull; EvFail]]) ]
  = [ (Ok tt, Ok tt); (Ok tt, Err (CDecrypt DecDecryptMasterKey));
      (Err (THop HopWrite), Err (CDecrypt DecDeserializeHeader)); (Ok tt, Ok tt) ].
Proof. exact headers_told. Qed.
(** A strip that fails may have removed a part of the header. *)
Example C117_strip_case :
  map (fun x => stripping (fst x) (snd x))
    [ ([], [repeat EvFull 4 ++ [EvShort 3; EvInt; EvShort 100]]);
      ([], [repeat EvFull 4 ++ [EvShort 3; EvFail]]);
      ([], [repeat EvFull 3 ++ [EvFail]]) ]
  = [ (Ok tt, zeros 8, 438);
      (Err (THop HopWrite), zeros 3 ++ skipn 3 (firstn 8 (s_data (disk enc_home) 10)), 438);
      (Err (THop HopRewind), firstn 8 (s_data (disk enc_home) 10), 438) ].
Proof. exact strips_told. Qed.
Example C117_case_applies :
  let c := struck [] [repeat EvInt 2 ++ repeat EvFull 8] (disk enc_home) in
  all_or_nothing (disk c)
  /\ all_or_nothing (disk (struck [] [[EvInt]; [EvFull; EvFull; EvFull; EvFail]] (disk stripped))).
Proof. exact tools_applies. Qed.
