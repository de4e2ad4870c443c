(** Property C112. *)
From Coq Require Import List Arith ZArith String.
From Verif Require Import Bytes Outcome IO Primitives Crypto EncDec FS Erase Archive Cli.
From Verif Require Import FSSpec FSFacts ArchiveSpec EraseCases CliSpec CliCases.
From Verif Require Import CliTools PackPathCases.
From Verif Require Import Races RacesSpec RacesProofs RacesCases.
Import ListNotations.
Local Open Scope string_scope.
Local Open Scope list_scope.

(** C112: files that other programs make while a command runs are safe from it.  They are
    not.  A file that appears under the name of the output after the check is overwritten
    without a question ... *)
Theorem C112_overwritten_refuted : exists O V g c c', no_faults (disk c) /\ inodes_ok (disk c)
  /\ not_given g "force" /\ given g "output" "new"
  /\ exists_path (disk c) (os_path "new") = false
  /\ (forall s, at_place (o_asking O s) ["home"; "new"] = Some (SFile (s_next s) (B "mine")))
  /\ run_command_o O V CmdEncrypt g c = (Ok tt, c')
  /\ (forall q, ~ In (NAsk q) (c_out c'))
  /\ forall q i, at_place (disk c') q <> Some (SFile i (B "mine")).
Proof. exact saved_over. Qed.
Print Assumptions C112_overwritten_refuted.

(** ... and a file saved under the name of the input is erased in its place, though it
    was never encrypted: from the output only the earlier content comes back. *)
Theorem C112_erased_refuted : exists O V g c c', no_faults (disk c) /\ inodes_ok (disk c)
  /\ given g "input" "a" /\ (forall s, o_asking O s = s)
  /\ at_place (disk c) ["home"; "a"] = Some (SFile 0 (B "secret"))
  /\ (forall s, exists i, at_place (o_erasing O s) ["home"; "a"] = Some (SFile i (B "mine")))
  /\ run_command_o O V CmdEncrypt g c = (Ok tt, c')
  /\ at_place (disk c') ["home"; "a"] = None
  /\ (forall q i, at_place (disk c') q <> Some (SFile i (B "mine")))
  /\ exists c2, run_command V CmdDecrypt (args (from_new "k" "out")) c' = (Ok tt, c2)
       /\ at_place (disk c2) ["home"; "out"] = Some (SFile 2 (B "secret")).
Proof. exact other_erased. Qed.
Print Assumptions C112_erased_refuted.

(** So is a file put into a directory while it is being packed. *)
Theorem C112_packed_refuted : exists O V g c c', no_faults (disk c) /\ inodes_ok (disk c) /\ In "d" (g "input")
  /\ (forall s, o_asking O s = s)
  /\ (forall s, exists i, at_place (o_erasing O s) ["home"; "d"; "z"] = Some (SFile i (B "mine")))
  /\ run_command_o O V CmdPack g c = (Ok tt, c')
  /\ (forall q i, at_place (disk c') q <> Some (SFile i (B "mine")))
  /\ exists c2, unpack_cli V "out" "new" false taking2 c' = (Ok tt, c2)
       /\ (exists i, at_place (disk c2) ["home"; "new"; "d"; "x"] = Some (SFile i (B "inner")))
       /\ (forall q i, at_place (disk c2) q <> Some (SFile i (B "mine"))).
Proof. exact pack_other_erased. Qed.
Print Assumptions C112_packed_refuted.

(** Without other programs these are the commands the other properties are about. *)
Theorem C112_same_programs : forall O V cmd given c, alone O ->
  run_command_o O V cmd given c = run_command V cmd given c.
Proof. exact run_alone. Qed.
Print Assumptions C112_same_programs.

(** What exists when the command starts is safe: whoever does not agree to overwriting
    the output loses nothing, whatever the others would do later. *)
Theorem C112_output_consent : forall O V cmd g c o c' output ls,
  In cmd [CmdEncrypt; CmdDecrypt; CmdPack] ->
  g "input"%string <> [] -> given g "output" output -> not_given g "force" ->
  exists_path (disk c) (os_path output) = true ->
  lines (c_stdin c) ls -> (forall n r, ~ dialogue true ls (Some true) n r) ->
  run_command_o O V cmd g c = (o, c') ->
  o <> Ok tt /\ c_a c' = c_a c.
Proof. exact declined_o. Qed.
Print Assumptions C112_output_consent.

Example C112_consent_case :
  map (fun i => (outcome_o saves_new CmdEncrypt [("input", ["a"]); ("output", ["out"]); ("keyfile", ["k"])] (start i [])))
    [[Byte.x6e]; []] = [Err CExit; Err CAnswer].
Proof. exact asked_no. Qed.

(** The file that encrypt and decrypt erase is the one that has the name then; no file under another
    name is lost, unless it is the same file. *)
Theorem C112_erases_current : forall O V cmd g c c' input output, In cmd [CmdEncrypt; CmdDecrypt] ->
  given g "input" input -> given g "output" output ->
  run_command_o O V cmd g c = (Ok tt, c') ->
  exists c1, ready_to_erase O V cmd g c c1
  /\ (stat (o_erasing O (disk c1)) (os_path input) = Some NDir
      \/ exists j q, stat (o_erasing O (disk c1)) (os_path input) = Some (NFile j)
          /\ resolve false (o_erasing O (disk c1)) (os_path input) = Some q
          /\ at_place (disk c') q = None
          /\ forall r, r <> q -> lookup (s_nodes (o_erasing O (disk c1))) r <> Some (NFile j) ->
               at_place (disk c') r = at_place (o_erasing O (disk c1)) r).
Proof. exact erased_current. Qed.
Print Assumptions C112_erases_current.

(** Decrypting [new] to [fresh]: a file saved as [fresh] is overwritten, one saved as
    [new] is erased. *)
Example C112_decrypt_case :
  let c := after V0 CmdEncrypt to_new (start [] []) in
  let c' := after_o saves_out CmdDecrypt (from_new "k" "fresh") c in
  (outcome_o saves_out CmdDecrypt (from_new "k" "fresh") c,
   map (at_place (disk c')) [["home"; "fresh"]; ["home"; "new"]])
  = (Ok tt, [Some (SFile 11 (B "secret")); None]).
Proof. exact decrypt_other. Qed.

(** What was there when the command started is kept, encrypted, whatever becomes of the
    name of the input while it is encrypted, if others keep away from the output and the
    header file, and start after the output is opened. *)
Theorem C112_kept_partial : forall O V g c c' input output i,
  env_ok (ce_E V) -> no_faults (disk c) -> inodes_ok (disk c) ->
  given g "input" input -> given g "output" output ->
  stat (disk c) (os_path input) = Some (NFile i) ->
  (forall t, In t (write_targets g output) -> stat (disk c) t <> Some (NFile i)) ->
  (forall h, given g "header" h -> different (disk c) (os_path output) (os_path h)) ->
  (forall s, o_asking O s = s) ->
  (forall c1, encrypt_so_far O V g c = (Ok tt, c1) ->
     lets_be (write_targets g output) (os_path input) (disk c1) (o_erasing O (disk c1))) ->
  run_command_o O V CmdEncrypt g c = (Ok tt, c') ->
  exists raw, key_taken V CmdEncrypt g Validate c output raw
    /\ kept_encrypted V g output (disk c) (disk c') raw (s_data (disk c) i).
Proof. exact kept_anyway. Qed.
Print Assumptions C112_kept_partial.

Example C112_let_be : forall O, In O [saves_x; saves_a] ->
  forall c1, encrypt_so_far O V0 (args to_new) (start [] []) = (Ok tt, c1) ->
  lets_be (write_targets (args to_new) "new") (os_path "a") (disk c1) (o_erasing O (disk c1)).
Proof. exact both_let_be. Qed.
Example C112_elsewhere_case : outcome_o saves_x CmdEncrypt to_new (start [] []) = Ok tt
  /\ map (at_place (disk (after_o saves_x CmdEncrypt to_new (start [] [])))) [["home"; "a"]; ["home"; "x"]]
     = [None; Some (SFile 11 (B "mine"))]
  /\ fst (run_command V0 CmdDecrypt (args (from_new "k" "out")) (after_o saves_x CmdEncrypt to_new (start [] []))) = Ok tt.
Proof. exact others_elsewhere. Qed.
