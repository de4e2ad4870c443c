(** Property C98: a file encrypted with one command line and decrypted with the next
    is back, and nothing else has changed.  Vocabulary: RoundSpec.v, ClapSpec.v,
    WorksSpec.v. *)
From Coq Require Import List Arith NArith ZArith Ascii String Bool.
From Verif Require Import Bytes Outcome IO Primitives Crypto FS Archive Cli.
From Verif Require Import FSSpec ArchiveSpec EraseCases CliSpec ChoiceSpec WorksSpec CliCases Clap ClapSpec RoundSpec RoundProofs.
Import ListNotations.
Local Open Scope list_scope.

(** C98: everything is said about the two lines and the file system before. *)
Theorem C98_there_and_back : forall V w1 ws1 g1 w2 ws2 g2 c input output q i pt raw,
  called CmdEncrypt w1 -> says CmdEncrypt ws1 g1 -> called CmdDecrypt w2 -> says CmdDecrypt ws2 g2 ->
  env_ok (ce_E V) -> ce_debug V = false -> no_faults (disk c) -> inodes_ok (disk c) ->
  given g1 "input" input -> given g1 "output" output -> not_given g1 "header" ->
  given g2 "input" output -> given g2 "output" input -> not_given g2 "header" ->
  resolve false (disk c) (os_path input) = Some q -> at_place (disk c) q = Some (SFile i pt) ->
  (N.of_nat (List.length pt / BLOCK_SIZE) <= counter_max (ce_E V))%N ->
  stat (disk c) (os_path output) <> Some (NFile i) -> can_write g1 (disk c) (os_path output) ->
  same_key V g1 g2 (disk c) (c_tty c) i output raw -> hashes (ce_E V) (kdf_asked g1) raw ->
  exists c1 c2 j, program V (w1 :: ws1) c = (FStatus 0, c1) /\ program V (w2 :: ws2) c1 = (FStatus 0, c2)
    /\ at_place (disk c1) q = None
    /\ at_place (disk c2) q = Some (SFile j pt) /\ stat (disk c2) (os_path output) = None
    /\ spared (disk c) (disk c2) q i (os_path output).
Proof. exact round_trip_lines. Qed.
Print Assumptions C98_there_and_back.

Example C98_case :
  let '(f1, c1) := program V0 ["encrypt"; "a"; "--aes=1"; "new"; "-k"; "k"]%string (start [] []) in
  let '(f2, c2) := program V0 ["-d"; "--keyfile=k"; "--"; "new"; "a"]%string c1 in
  (f1, f2, map (fun n => at_place (disk c2) ["home"; n]%string) ["a"; "new"; "k"; "h"]%string)
  = (FStatus 0, FStatus 0,
     [Some (SFile 11 (B "secret")); None; Some (SFile 1 (B "key")); Some (SFile 3 (B "oldh"))]).
Proof. vm_compute. reflexivity. Qed.
(** With a passphrase drawn by the first and typed at the second. *)
Example C98_phrase_case :
  let '(f1, c1) := program V0 ["encrypt"; "--auto=2"; "a"; "new"]%string (start [] [Some (B "beta-beta")]) in
  let '(f2, c2) := program V0 ["decrypt"; "new"; "a"]%string c1 in
  (f1, f2, map (fun n => at_place (disk c2) ["home"; n]%string) ["a"; "new"; "k"; "h"]%string)
  = (FStatus 0, FStatus 0,
     [Some (SFile 11 (B "secret")); None; Some (SFile 1 (B "key")); Some (SFile 3 (B "oldh"))]).
Proof. vm_compute. reflexivity. Qed.
