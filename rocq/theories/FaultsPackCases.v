(** The concrete runs of PropertiesFaultsPack. *)
From Coq Require Import List Arith NArith ZArith Ascii String Bool Lia.
From Verif Require Import Bytes Outcome IO Primitives Crypto Header Stream KeyModel EncDec KeyOps HeaderOps.
From Verif Require Import ArchiveSpec RestoreSpec RestoreManySpec ArchiveCases RestoreCases.
From Verif Require Import Overwrite Hash FS Erase Archive Cli CliTools.
From Verif Require Import IOSpec ToyEnv Fixtures FileCases EraseCases FSSpec CliSpec CliCases PackPathSpec PackPathCases FaultsSpec FaultsCases.
From Verif Require FSFacts.
Import ListNotations.
Local Open Scope nat_scope.
Local Open Scope string_scope.
Local Open Scope list_scope.
Strategy 1000 [walk MAX_LINKS resolve].

(** [fs]: which calls on the file system fail.  [ps]: how the files opened behave: the key,
    the output, the header, the files packed, then the file in the temporary directory.
    What is looked at: the result, the sizes of output and header, and of the files packed. *)
Definition packing (fs : list bool) (ps : list (list ev))
  : outcome cli_error unit * (option nat * option nat) * list (option nat) :=
  let c' := after V0 CmdPack packing2 (struck fs ps home2) in
  (outcome_of V0 CmdPack packing2 (struck fs ps home2), (size_at (disk c') "out", size_at (disk c') "h"),
   map (fun q => match at_place (disk c') q with Some (SFile _ l) => Some (List.length l) | _ => None end)
     [["home"; "d"; "x"]; ["home"; "e"; "y"]]).

(** The directories can still be packed. *)
Lemma to_pack_disk : forall g s s' output dirs, FSFacts.same_disk s s' -> to_pack g s output dirs -> to_pack g s' output dirs.
Proof.
  intros g s s' output dirs SD [A1 A2 A3 A4 A5 A6].
  assert (R : forall f p, resolve f s' p = resolve f s p) by (intros; apply FSFacts.resolve_disk, SD).
  assert (S : forall p, stat s' p = stat s p).
  { intros p. unfold stat. rewrite R. destruct SD as (-> & _). reflexivity. }
  destruct SD as (N & D & _).
  assert (EL : forall q p, elsewhere s q p -> elsewhere s' q p).
  { intros q p [B1 B2]. unfold elsewhere. rewrite R, S, N. split; assumption. }
  constructor; auto.
  - eapply Forall_impl; [|exact A3]. intros d [B1 B2 B3 B4 B5].
    constructor; [exact B1|rewrite R; exact B2|rewrite N; exact B3|unfold no_links_inside; rewrite N; exact B4|].
    intros rel X. apply B5. intros Y. apply X. unfold at_place in *. rewrite N, D. exact Y.
  - eapply Forall_impl; [|exact A5]. intros d. apply EL.
  - intros h G. destruct (A6 h G) as [B C]. split; [unfold different; rewrite !R, !S; exact B|].
    eapply Forall_impl; [|exact C]. intros d. apply EL.
Qed.
Lemma to_pack_struck : forall fs ps, to_pack (args packing2) (disk (struck fs ps home2)) "out" dirs2.
Proof. intros fs ps. apply (to_pack_disk _ home2); [|exact to_pack_here]. repeat (split; [reflexivity|]). reflexivity. Qed.

Lemma half_packed : exists V g c c1 c2 k, env_ok (ce_E V) /\ inodes_ok (disk c)
  /\ s_faults (disk c) = [] /\ s_plans (disk c) = [[]; []; []; [EvShort k]]
  /\ g "input" = ["d"; "./e"] /\ given g "output" "out" /\ to_pack g (disk c) "out" dirs2
  /\ at_place (disk c) ["home"; "d"; "x"] = Some (SFile 4 (B "inner"))
  /\ run_command V CmdPack g c = (Ok tt, c1)
  /\ at_place (disk c1) ["home"; "d"] = None
  /\ unpack_cli V "out" "new" false taking2 c1 = (Ok tt, c2)
  /\ exists i, at_place (disk c2) ["home"; "new"; "d"; "x"] = Some (SFile i (B "inn")).
Proof.
  exists V0, (args packing2), (struck [] [[]; []; []; [EvShort 2]] home2). eexists. eexists. exists 2.
  split; [exact toy_ok|].
  split; [apply inodes_okb_spec; vm_compute; reflexivity|].
  split; [reflexivity|]. split; [reflexivity|]. split; [reflexivity|]. split; [eexists; reflexivity|].
  split; [apply to_pack_struck|]. split; [vm_compute; reflexivity|].
  split; [apply ran; vm_compute; reflexivity|]. split; [vm_compute; reflexivity|].
  split; [apply pair_ok; vm_compute; reflexivity|]. eexists. vm_compute. reflexivity.
Qed.

Lemma pack_failures_told :
  map (fun x => packing (fst x) (snd x))
    [ ([], [[]; []; []; [EvFail]]);
      ([], [[]; [EvFail]]);
      ([], [[]; []; []; []; []; [EvFail]]);
      ([], [[]; []; []; []; []; [EvInt]]);
      ([false; false; false; false; false; false; true], []);
      (repeat false 11 ++ [true], []);
      (repeat false 14 ++ [true], []);
      (repeat false 19 ++ [true], []) ]
  = [ (Err (CPack PkReadData), (Some 0, Some 0), [Some 5; Some 5]);
      (Err (CPack (PkEncrypt EncResetCursorPosition)), (Some 0, Some 0), [Some 5; Some 5]);
      (Err (CPack PkFinishArchive), (Some 0, Some 0), [Some 5; Some 5]);
      (Ok tt, (Some 77, Some 416), [None; None]);
      (Err (CStorage StOpenRead), (Some 0, Some 0), [Some 5; Some 5]);
      (Ok tt, (Some 77, Some 416), [None; None]);
      (Err (CStorage StFlushFile), (Some 77, Some 416), [Some 5; Some 5]);
      (Err (CEraseDir (EdEraseFile EraOpenFile)), (Some 77, Some 416), [Some 0; Some 5]) ].
Proof. vm_compute. reflexivity. Qed.
