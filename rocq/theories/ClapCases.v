(** The concrete runs of PropertiesClap. *)
From Coq Require Import List Arith ZArith Ascii String Bool.
From Verif Require Import Bytes Outcome IO FS Archive Cli FSSpec EraseCases CliSpec CliCases PackPathCases.
From Verif Require Import Clap ClapSpec ClapProofs ClapResults.
Import ListNotations.
Local Open Scope list_scope.

(** What a line reads as, one after another. *)
Definition heard (line : list string) (ids : list string) : option (command * list (list string)) :=
  match read_command line with Some (c, g) => Some (c, map g ids) | None => None end.
Lemma heard_says : forall w ws c g, read_command (w :: ws) = Some (c, g) -> called c w /\ says c ws g.
Proof.
  intros w ws c g R. destruct (proj1 (read_command_iff (w :: ws) c g)) as (w' & ws' & E & C & S); [exists g; auto|].
  injection E as <- <-. auto.
Qed.

(** [-r] takes the word after it. *)
Definition recursive_line : list string := ["pack"; "-r"; "d"; "e"; "out"; "--keyfile=k"; "--force=yes"]%string.
Definition only_e : list string := ["pack"; "e"; "out"; "--keyfile=k"; "--force=yes"]%string.
Lemma swallowed : exists V c c' g,
  program V recursive_line c = (FStatus 0, c')
  /\ says CmdPack (tl recursive_line) g /\ g "input"%string = ["e"%string]
  /\ at_place (disk c) ["home"; "d"]%string = Some SDir
  /\ exists d, at_place (disk c') ["home"; "out"]%string = Some (SFile 2 d)
     /\ at_place (disk (snd (program V only_e c))) ["home"; "out"]%string = Some (SFile 2 d).
Proof.
  assert (R : exists g, read_command recursive_line = Some (CmdPack, g)) by (eexists; vm_compute; reflexivity).
  destruct R as [g R]. exists V0, start2, (snd (program V0 recursive_line start2)), g.
  split; [rewrite (surjective_pairing (program _ _ _)) at 1; f_equal; vm_compute; reflexivity|].
  split; [exact (proj2 (heard_says _ _ _ _ R))|]. split; [|split; [vm_compute; reflexivity|]].
  - assert (E : option_map (fun x => snd x "input"%string) (read_command recursive_line) = Some ["e"%string]) by (vm_compute; reflexivity).
    rewrite R in E. injection E as E. exact E.
  - eexists. split; vm_compute; reflexivity.
Qed.

(** The output may be overwritten, the header file may not. *)
Definition both_line : list string := ["encrypt"; "a"; "out"; "-k"; "k"; "--header=h"]%string.
Lemma declined_zero : exists V c c' g,
  says CmdEncrypt (tl both_line) g
  /\ no_faults (disk c)
  /\ at_place (disk c) ["home"; "out"]%string = Some (SFile 2 (B "old"))
  /\ program V both_line c = (FStatus 0, c')
  /\ run_command V CmdEncrypt g c = (Err CExit, c')
  /\ at_place (disk c') ["home"; "out"]%string = Some (SFile 2 []).
Proof.
  assert (R : exists g, read_command both_line = Some (CmdEncrypt, g)) by (eexists; vm_compute; reflexivity).
  destruct R as [g R]. exists V0, (start yes_no []), (snd (program V0 both_line (start yes_no []))), g.
  split; [exact (proj2 (heard_says _ _ _ _ R))|]. split; [apply home_calm|]. split; [reflexivity|].
  split; [rewrite (surjective_pairing (program _ _ _)) at 1; f_equal; vm_compute; reflexivity|].
  split; [|vm_compute; reflexivity].
  assert (E : option_map (fun x => fst (run_command V0 CmdEncrypt (snd x) (start yes_no []))) (read_command both_line)
              = Some (Err CExit)) by (vm_compute; reflexivity).
  rewrite R in E. unfold option_map in E. apply (f_equal (fun o => match o with Some x => x | None => Panic end)) in E.
  unfold program. rewrite R. unfold snd in E at 1.
  destruct (run_command V0 CmdEncrypt g (start yes_no [])) as [o c1]. cbn [fst] in E. subst o. reflexivity.
Qed.
