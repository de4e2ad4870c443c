(** Properties of the command line: what it means and how the program answers. *)
From Coq Require Import List Arith ZArith Ascii String Bool.
From Verif Require Import Bytes Outcome IO FS Archive Cli FSSpec EraseCases CliSpec CliCases PackPathCases.
From Verif Require Import Clap ClapSpec ClapProofs ClapResults ClapCases.
Import ListNotations.
Local Open Scope list_scope.

(** ** C95: a command line means what the interface says *)

(** A line is accepted, and read as the request [g], exactly when it says [g]. *)
Theorem C95_line : forall line c g,
  (exists g', read_command line = Some (c, g') /\ forall id, g' id = g id)
  <-> exists w ws, line = w :: ws /\ called c w /\ says c ws g.
Proof. exact read_command_iff. Qed.
Print Assumptions C95_line.

(** What is read satisfies what the other theorems about the commands assume. *)
Theorem C95_matches : forall line c g, read_command line = Some (c, g) ->
  matches_ok (mkMatches (args_of c) g).
Proof. exact read_ok. Qed.
Print Assumptions C95_matches.

(** Every such request can be made (in [pack] only the first operand may look like
    an option). *)
Theorem C95_all : forall c g, matches_ok (mkMatches (args_of c) g) ->
  (forall id, Forall as_text (g id)) ->
  (c = CmdPack -> Forall (fun w => ~ option_like w) (tl (g "input"%string ++ g "output"%string))) ->
  exists ws, says c ws g.
Proof. exact all_said. Qed.
Print Assumptions C95_all.

Example C95_case :
  map (fun l => heard l ["input"; "output"; "keyfile"; "force"; "erase"]%string)
    [["encrypt"; "a"; "--force"; "1"; "out"; "-kf"; "--erase=3"];
     ["-d"; "-k=f"; "--"; "-a"; "--erase=3"];
     ["pack"; "a"; "b"; "-k"; "f"; "c"];
     ["pack"; "a"; "b"; "c"; "-k"; "f"];
     ["encrypt"; "a"; "out"; "--erase"; "3"]; ["encrypt"; "a"; "out"; "-k"; "f"; "-k"; "f"];
     ["encrypt"; "a"; "out"; "-k"; "f"; "--auto=7"]; ["encrypt"; "a"]; ["erase"; "a"; "b"]]%string
  = [Some (CmdEncrypt, [["a"]; ["out"]; ["f"]; ["1"]; ["3"]]);
     Some (CmdDecrypt, [["-a"]; ["--erase=3"]; ["f"]; []; []]);
     None;
     Some (CmdPack, [["a"; "b"]; ["c"]; ["f"]; []; []]);
     None; None; None; None; None]%string.
Proof. vm_compute. reflexivity. Qed.

(** ** C96: a flag needs no value *)

(** C96 is false: a flag at the end of the line makes the program refuse it. *)
Theorem C96_flag_last_refuted : forall V c o w cmd ws st,
  flag_of c o -> bare o w -> called c cmd -> ~ In "--"%string ws ->
  program V (cmd :: ws ++ [w]) st = (FClap, st).
Proof. exact flag_last. Qed.
Print Assumptions C96_flag_last_refuted.

(** A flag elsewhere takes the word that follows: [pack -r d e out] succeeds and
    leaves out the directory [d], as if it had not been named. *)
Theorem C96_swallowed_refuted : exists V c c' g,
  program V recursive_line c = (FStatus 0, c')
  /\ says CmdPack (tl recursive_line) g /\ g "input"%string = ["e"%string]
  /\ at_place (disk c) ["home"; "d"]%string = Some SDir
  /\ exists d, at_place (disk c') ["home"; "out"]%string = Some (SFile 2 d)
     /\ at_place (disk (snd (program V only_e c))) ["home"; "out"]%string = Some (SFile 2 d).
Proof. exact swallowed. Qed.
Print Assumptions C96_swallowed_refuted.

(** What does hold: the value of a flag makes no difference, only whether it is
    given ([--force=false] forces). *)
Theorem C96_values_partial : forall V cmd g g' c, same_request cmd g g' ->
  run_command V cmd g c = run_command V cmd g' c.
Proof. exact flag_values. Qed.
Print Assumptions C96_values_partial.

Example C96_case :
  map (fun l => fst (program V0 l (start [] [])))
    [["encrypt"; "a"; "out"; "-k"; "k"; "--force"]; ["encrypt"; "a"; "out"; "-k"; "k"; "-f"];
     ["encrypt"; "-f"; "a"; "out"; "-k"; "k"]; ["encrypt"; "a"; "out"; "-k"; "k"; "--force=false"];
     ["encrypt"; "a"; "out"; "-k"; "k"]]%string
  = [FClap; FClap; FClap; FStatus 0; FStatus 1].
Proof. vm_compute. reflexivity. Qed.

(** ** C97: the exit status tells whether the work was done *)

(** C97 is false: an encryption broken off at the second question, when the old
    output is gone, ends with status 0. *)
Theorem C97_declined_refuted : exists V c c' g,
  says CmdEncrypt (tl both_line) g
  /\ no_faults (disk c)
  /\ at_place (disk c) ["home"; "out"]%string = Some (SFile 2 (B "old"))
  /\ program V both_line c = (FStatus 0, c')
  /\ run_command V CmdEncrypt g c = (Err CExit, c')
  /\ at_place (disk c') ["home"; "out"]%string = Some (SFile 2 []).
Proof. exact declined_zero. Qed.
Print Assumptions C97_declined_refuted.

(** What does hold: status 0 means that the command ran to its end, or that it was
    not forced and stopped at a question, the last thing printed. *)
Theorem C97_zero_partial : forall V line c c', program V line c = (FStatus 0, c') ->
  exists cmd w ws g, line = w :: ws /\ called cmd w /\ says cmd ws g
    /\ (run_command V cmd g c = (Ok tt, c')
        \/ run_command V cmd g c = (Err CExit, c') /\ not_given g "force" /\ asked_last c').
Proof. exact status_zero. Qed.
Print Assumptions C97_zero_partial.

(** With [force] the status is 0 exactly when the command ran to its end. *)
Theorem C97_forced_partial : forall V cmd w ws g c, called cmd w -> says cmd ws g ->
  g "force"%string <> [] ->
  forall f c', program V (w :: ws) c = (f, c') ->
  (f = FStatus 0 <-> run_command V cmd g c = (Ok tt, c')).
Proof. exact status_done. Qed.
Print Assumptions C97_forced_partial.

(** Every other error gives status 1. *)
Theorem C97_failed_partial : forall V cmd w ws g c e c', called cmd w -> says cmd ws g -> e <> CExit ->
  run_command V cmd g c = (Err e, c') -> program V (w :: ws) c = (FStatus 1, c').
Proof. exact status_failed. Qed.
Print Assumptions C97_failed_partial.

Example C97_case :
  map (fun l => fst (program V0 l (start yes_no [])))
    [both_line; ["hash"; "a"]; ["hash"; "missing"]; ["erase"; "a"; "--force=1"];
     ["decrypt"; "a"; "new"; "-k"; "k"]; ["unpack"; "a"; "new"]; ["encrypt"]]%string
  = [FStatus 0; FStatus 0; FStatus 1; FStatus 0; FStatus 1; FStatus 101; FClap].
Proof. vm_compute. reflexivity. Qed.
