(** The concrete runs of PropertiesKilled. *)
From Coq Require Import List Arith NArith ZArith Ascii String Bool Lia.
From Verif Require Import Bytes Outcome IO Primitives Crypto Header Stream KeyModel EncDec KeyOps HeaderOps.
From Verif Require Import Overwrite Hash FS Erase Archive ArchiveSpec ArchiveCases Cli CliTools.
From Verif Require Import IOSpec KeySpec ToyEnv Fixtures FileCases EraseCases FSSpec CliSpec CliCases CliToolsSpec CliToolsCases CrashSpec KilledSpec.
Import ListNotations.
Local Open Scope nat_scope.
Local Open Scope string_scope.
Local Open Scope list_scope.

(** The disk of [c] when the command that leads to [c'] is cut off after [m] changes and
    [n] bytes of the next. *)
Definition changes (c c' : cli) : list fsev := skipn (List.length (s_log (disk c))) (s_log (disk c')).
Definition part (n : nat) (e : fsev) : list fsev :=
  match e with FWrite i p l => [FWrite i p (firstn n l)] | _ => [] end.
Definition broken_off (m n : nat) (c c' : cli) : sys :=
  redo (firstn m (changes c c') ++ match skipn m (changes c c') with e :: _ => part n e | [] => [] end) (disk c).
Lemma broken_off_killed : forall m n c c', s_log (disk c') = s_log (disk c) ++ changes c c' ->
  killed (disk c) (disk c') (broken_off m n c c').
Proof.
  intros m n c c' L. exists (changes c c'), (changes c c'). eexists.
  split; [exact L|]. split; [constructor|]. split; [|reflexivity].
  generalize (changes c c'). intros es. pose proof (firstn_skipn m es) as S.
  destruct (skipn m es) as [|e r].
  - rewrite app_nil_r. rewrite <- S at 1. constructor.
  - rewrite <- S at 1. destruct e; cbn [part]; try (rewrite app_nil_r; constructor). constructor.
Qed.
(** The machine started again with that disk. *)
Definition on_disk (s : sys) : cli := mkCli (s, []) [] [] [].

(** "volaris key add -k k -n h new" *)
Definition adding : key_tool := ToolAdd (Keyfile "k") (Keyfile "h") ha.
Definition added_key : cli := snd (run_tool V0 "new" adding enc_home).

Lemma add_killed : exists V input t c c' i k pw l, env_ok (ce_E V) /\ no_faults (disk c)
  /\ stat (disk c) (os_path input) = Some (NFile i)
  /\ run_tool V input t c = (Ok tt, c') /\ killed (disk c) (disk c') k
  /\ ok_out (decrypt_execute (ce_E V) false pw (io_world (s_data (disk c) i))) = Some l
  /\ ok_out (decrypt_execute (ce_E V) false pw (io_world (s_data (disk c') i))) = Some l
  /\ forall pw' v, w_in v = dev_of (s_data k i) ->
       fst (decrypt_execute (ce_E V) false pw' v) = Err DecDeserializeHeader.
Proof.
  exists V0, "new", adding, enc_home, added_key, 10, (broken_off 0 129 enc_home added_key), (s_data (disk enc_home) 1), (B "secret").
  split; [exact toy_ok|]. split; [split; vm_compute; reflexivity|]. split; [vm_compute; reflexivity|].
  split; [vm_compute; reflexivity|]. split; [apply broken_off_killed; vm_compute; reflexivity|].
  split; [vm_compute; reflexivity|]. split; [vm_compute; reflexivity|].
  intros pw [vi vo vh vr vt] Hi. cbn [w_in] in Hi. subst vi. vm_compute. reflexivity.
Qed.

(** "volaris header dump new hd" and "volaris header strip new" *)
Definition dumped : cli := snd (dump "new" "hd" Prompt (again enc_home [] [])).
Definition stripped : cli := snd (strip "new" dumped).
(** "volaris decrypt -f -k k --header hd new back" *)
Definition detached : list (string * list string) :=
  [("input", ["new"]); ("output", ["back"]); ("keyfile", ["k"]); ("header", ["hd"]); ("force", [""])].

Lemma strip_killed : exists V c c1 c2 c3 k, env_ok (ce_E V) /\ no_faults (disk c)
  /\ dump "new" "hd" Prompt c = (Ok tt, c1)
  /\ fst (run_command V CmdDecrypt (args (from_new "k" "back")) c1) = Ok tt
  /\ strip "new" c1 = (Ok tt, c2)
  /\ run_command V CmdDecrypt (args detached) c2 = (Ok tt, c3)
  /\ at_place (disk c3) ["home"; "back"] = Some (SFile (s_next (disk c2)) (B "secret"))
  /\ killed (disk c1) (disk c2) k
  /\ fst (run_command V CmdDecrypt (args (from_new "k" "back")) (on_disk k)) = Err (CDecrypt DecDeserializeHeader)
  /\ fst (run_command V CmdDecrypt (args detached) (on_disk k)) = Err (CDecrypt DecDecryptData)
  /\ fst (restore "hd" "new" (on_disk k)) = Err (THop HopUnsupportedRestore)
  /\ fst (strip "new" (on_disk k)) = Err (THop HopInvalidFile).
Proof.
  exists V0, (again enc_home [] []), dumped, stripped. eexists. exists (broken_off 0 100 dumped stripped).
  split; [exact toy_ok|]. split; [split; vm_compute; reflexivity|]. split; [vm_compute; reflexivity|].
  split; [vm_compute; reflexivity|]. split; [vm_compute; reflexivity|]. split; [apply ran; vm_compute; reflexivity|].
  split; [vm_compute; reflexivity|]. split; [apply broken_off_killed; vm_compute; reflexivity|].
  split; [vm_compute; reflexivity|]. split; [vm_compute; reflexivity|]. split; vm_compute; reflexivity.
Qed.

(** "volaris unpack -f -k k in out" *)
Definition packed_in : cli := zhome [("c", "new c"); ("a", "new a")] [].
Definition unpacked : cli := snd (unpack_run (params "k" Force) packed_in).

Lemma unpack_left : exists V p c c' k i l, env_ok (ce_E V) /\ no_faults (disk c)
  /\ unpack_cli V "in" "out" false p c = (Ok tt, c') /\ killed (disk c) (disk c') k
  /\ resolve false (disk c) (temp_path (ce_pick V) (disk c)) = Some ["tmp"; "tmpname"]
  /\ at_place (disk c) ["tmp"; "tmpname"] = None /\ at_place (disk c') ["tmp"; "tmpname"] = None
  /\ at_place k ["tmp"; "tmpname"] = Some (SFile i l)
  /\ option_map (map (fun e => (zr_name e, zr_data e))) (z_decode (ce_Z V) l) = Some [("c", B "new c"); ("a", B "new a")].
Proof.
  exists V0, (params "k" Force), packed_in, unpacked, (broken_off 2 0 packed_in unpacked). eexists. eexists.
  split; [exact toy_ok|]. split; [apply zhome_calm|]. split; [vm_compute; reflexivity|].
  split; [apply broken_off_killed; vm_compute; reflexivity|]. split; [vm_compute; reflexivity|].
  split; [vm_compute; reflexivity|]. split; [vm_compute; reflexivity|]. split; [vm_compute; reflexivity|].
  vm_compute. reflexivity.
Qed.

(** The runs above cut off: what differs. *)
Definition differs (s k : sys) (i : nat) : nat * nat * bool * bool :=
  (List.length (s_data s i), List.length (s_data k i), bytes_eqb (s_data s i) (s_data k i),
   bytes_eqb (skipn 416 (s_data s i)) (skipn 416 (s_data k i))).
Lemma add_differs : let k := broken_off 0 129 enc_home added_key in
  (differs (disk enc_home) k 10, fst (run_tool V0 "new" adding enc_home)) = ((438, 438, false, true), Ok tt).
Proof. vm_compute. reflexivity. Qed.
Lemma strip_differs : let k := broken_off 0 100 dumped stripped in
  (differs (disk dumped) k 10, fst (strip "new" dumped)) = ((438, 438, false, true), Ok tt).
Proof. vm_compute. reflexivity. Qed.
(** "volaris header restore hd new", cut off after 200 bytes. *)
Lemma restore_differs : let c' := snd (restore "hd" "new" stripped) in let k := broken_off 0 200 stripped c' in
  (differs (disk stripped) k 10, fst (restore "hd" "new" stripped), bytes_eqb (s_data (disk c') 10) (s_data (disk dumped) 10))
  = ((438, 438, false, true), Ok tt, true).
Proof. vm_compute. reflexivity. Qed.
(** The added keyslot is written by half: the old key still opens the file. *)
Lemma add_half : let k := broken_off 0 170 enc_home added_key in
  (differs (disk enc_home) k 10, fst (opens "k" (on_disk k)), fst (opens "h" (on_disk k)), fst (opens "h" added_key))
  = ((438, 438, false, true), Ok tt, Err (CDecrypt DecDecryptMasterKey), Ok tt).
Proof. vm_compute. reflexivity. Qed.
(** "c" is there and "a" is emptied; the temporary archive is left. *)
Lemma unpack_half : let k := broken_off 5 0 packed_in unpacked in
  (map (at_place k) [["home"; "out"; "c"]; ["home"; "out"; "a"]],
   bytes_eqb (s_data (disk packed_in) 0) (s_data k 0), map (at_place (disk unpacked)) [["home"; "out"; "c"]; ["home"; "out"; "a"]])
  = ([Some (SFile 11 (B "new c")); Some (SFile 2 [])], true, [Some (SFile 11 (B "new c")); Some (SFile 2 (B "new a"))]).
Proof. vm_compute. reflexivity. Qed.
