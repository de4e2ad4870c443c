(** Fixtures and counterexamples for PropertiesWipeCmd.v. *)
From Coq Require Import List Arith NArith ZArith String Bool Lia.
From Verif Require Import Bytes Outcome IO Primitives Crypto Header HeaderSpec HeaderFacts KeyModel FS FSSpec FSFacts Archive Cli CliSpec CliKeys ToyEnv EraseCases CliCases.
From Verif Require Import Wipe WipeSpec WipeCli WipeCliSpec WipeCases WipeCmd WipeCmdSpec.
Import ListNotations.
Local Open Scope nat_scope.
Local Open Scope list_scope.

Definition cmd_m (cmd : command) (l : list (string * list string)) (c : cli) :=
  run_command_m V0 16 cmd (args l) (c, []).
Definition keyed : list (string * list string) :=
  [("input", ["a"]); ("output", ["new"]); ("keyfile", ["k"])]%string.
Definition keyed_header : list (string * list string) := keyed ++ [("header", ["h"])]%string.
Definition packed : list (string * list string) :=
  [("input", ["d"]); ("output", ["new"]); ("keyfile", ["k"])]%string.
Definition backwards : list (string * list string) :=
  [("input", ["new"]); ("output", ["again"]); ("keyfile", ["k"])]%string.
Definition hashed : list (string * list string) := [("input", ["a"; "k"])]%string.
(** After [volaris encrypt a new --keyfile k] *)
Definition sealed_home : cli := fst (snd (cmd_m CmdEncrypt keyed (start [] []))).

(** The files there begin with no header, or with that of a file of blocks. *)
Lemma mode_byte d h aad d' : d_pos d = 0 -> deserialize d = (Ok (h, aad), d') ->
  nth_error (d_data d) 5 = Some (mode_tag (ht_mode (h_type h))).
Proof.
  intros P R. apply deserialize_spec in R as (_ & _ & _ & R). cbv zeta in R.
  destruct R as (L & _ & R & _). rewrite P in L, R. cbn [skipn] in L, R.
  destruct (parse_header_total _ _ L) as [(a & m & h' & P1 & P2 & P3 & P4 & P5)|((e & P1) & _)]; [|congruence].
  rewrite R in P3. injection P3 as <- _. rewrite P4 in P1 |- *. cbn [ht_mode].
  set (full := firstn _ (d_data d)) in *.
  assert (X : nth_error full 5 = Some (mode_tag m)).
  { unfold slice in P1. destruct full as [|x0 [|x1 [|x2 [|x3 [|x4 [|x5 r]]]]]]; try discriminate.
    injection P1 as _ _ _ ->. reflexivity. }
  rewrite <- X. rewrite <- (firstn_skipn (get_size (ht_version (h_type h))) (d_data d)) at 1.
  fold full. apply nth_error_app1. rewrite L. destruct (ht_version (h_type h)); cbn; lia.
Qed.
Lemma sealed_blocks : in_blocks (disk sealed_home).
Proof.
  intros j d h aad d' D P R. apply mode_byte in R; [|exact P]. rewrite D in R.
  destruct (ht_mode (h_type h)); [exfalso|reflexivity].
  do 14 (destruct j as [|j]; [vm_compute in R; discriminate|]). vm_compute in R. discriminate.
Qed.

Lemma exit_leaves_key bs : exists V g c c' m i secret,
  matches_ok (mkMatches (args_of CmdEncrypt) g) /\ no_faults (disk c)
  /\ run_command_m V bs CmdEncrypt g (c, []) = (Err CExit, (c', m))
  /\ secret <> [] /\ handed_on_alone m i secret.
Proof.
  exists V0, (args keyed_header), (start (B "n") []). eexists. exists [mkCell Key (B "key") true], 0, (B "key").
  split; [apply args_ok; reflexivity|]. split; [apply home_calm|]. split; [vm_compute; reflexivity|].
  split; [discriminate|]. split; [reflexivity|]. intros [|[|j]] x X N; [congruence|discriminate|discriminate].
Qed.
Lemma pack_leaves_content : exists V bs g c c' m z,
  matches_ok (mkMatches (args_of CmdPack) g) /\ no_faults (disk c)
  /\ run_command_m V bs CmdPack g (c, []) = (Ok tt, (c', m))
  /\ at_place (disk c) ["home"; "d"; "x"]%string = Some (SFile 4 (B "inner"))
  /\ In (mkCell Plain (B "inner" ++ z) false) m.
Proof.
  exists V0, 16, (args packed), (start [] []). eexists. exists (snd (snd (cmd_m CmdPack packed (start [] [])))), (zeros 11).
  split; [apply args_ok; reflexivity|]. split; [apply home_calm|]. split; [vm_compute; reflexivity|].
  split; [reflexivity|]. vm_compute. tauto.
Qed.
