(** Hashing by path while calls fail. *)
From Coq Require Import List Arith NArith ZArith Ascii String Bool Lia.
From Verif Require Import Bytes Outcome IO IOFacts Primitives Crypto Header Stream KeyModel EncDec.
From Verif Require Import Overwrite Hash FS Erase Archive Cli.
From Verif Require Import IOSpec ToolSpec ToolProofs FSSpec FSFacts EraseProofs ArchiveSpec UnpackProofs PackProofs CliSpec CliKeys CliRuns CliCommands CliProofs FaultsSpec FaultsRuns.
Import ListNotations.
Local Open Scope nat_scope.
Local Open Scope list_scope.

Lemma hash_file_an : forall V p s o s', hash_file V p s = (o, s') -> all_or_nothing s ->
  same_disk s s' /\ all_or_nothing s' /\ o <> Panic /\ o <> Diverge
  /\ (forall h, o = Ok h -> exists i, stat s p = Some (NFile i) /\ h = hex_encode (ce_blake3 V (s_data s i))).
Proof.
  intros V p s o s' H A. destruct (hash_file_any _ _ _ _ _ H) as (D & _ & NP & ND & _).
  split; [exact D|]. unfold hash_file in H.
  destruct (call_or_inv _ _ _ _ _ H) as (s1 & D1 & _ & PL & _ & [(-> & -> & _)|HM]).
  { split; [exact (an_same _ _ PL A)|]. repeat (split; [discriminate|]). discriminate. }
  pose proof (an_same _ _ PL A) as A1. rewrite (stat_disk s s1 p D1) in HM.
  destruct (stat s p) as [[|i|t]|] eqn:ST.
  2:{ pose proof (next_plan_an s1 A1) as [N2 A2]. destruct (next_plan s1) as [plan s2]. cbn [fst snd] in N2, A2.
      assert (DD : s_data s1 i = s_data s i) by (destruct D1 as (_ & -> & _); reflexivity).
      rewrite DD in HM.
      destruct (hash_execute (Blake3Hasher (ce_blake3 V)) [] (mkDev (s_data s i) 0 plan [])) as [r d'] eqn:HX.
      destruct (hash_short_holds _ _ _ _ _ (blake3_incremental _) HX) as (_ & _ & _ & _ & Z).
      assert (E : s' = s2) by (destruct r; injection HM as _ <-; reflexivity). rewrite E.
      split; [exact A2|]. split; [exact NP|]. split; [exact ND|]. intros h ->. exists i. split; [reflexivity|].
      destruct r as [x| | |]; try discriminate. injection HM as -> _.
      destruct (Z h eq_refl) as (k & -> & K). cbn [d_plan d_data] in K. rewrite (K N2). cbn [d_data].
      rewrite firstn_all. reflexivity. }
  all: injection HM as <- <-; split; [exact A1|]; repeat (split; [discriminate|]); discriminate.
Qed.

Definition hashes_of (V : cenv) (s : sys) (fs : list string) (is : list nat) : list note :=
  map (fun fi => NHash (fst fi) (hex_encode (ce_blake3 V (s_data s (snd fi))))) (combine fs is).

Lemma hash_files_an : forall V s fs c o c', hash_files V fs c = (o, c') -> all_or_nothing (disk c) -> same_disk s (disk c) ->
  exists ds rest is, fs = ds ++ rest
    /\ Forall2 (fun f i => stat s (os_path f) = Some (NFile i)) ds is
    /\ c_out c' = c_out c ++ hashes_of V s ds is
    /\ (o = Ok tt <-> rest = []).
Proof.
  intros V s. induction fs as [|f fs IH]; intros c o c' H A S.
  - cbn in H. unfold ret in H. injection H as <- <-. exists [], [], []. split; [reflexivity|]. split; [constructor|].
    split; [cbn; rewrite app_nil_r; reflexivity|]. split; reflexivity.
  - cbn [hash_files] in H. unfold bind in H. rewrite on_fs_run in H.
    destruct (hash_file V (os_path f) (disk c)) as [r s1] eqn:HF. cbn [fst snd] in H.
    destruct (hash_file_an _ _ _ _ _ HF A) as (D & A1 & NP & ND & OK).
    destruct r as [h|e| |]; try congruence.
    + rewrite say_run in H. destruct (OK h eq_refl) as (i & SI & ->).
      apply IH in H; [|exact A1|eapply same_disk_trans; eassumption].
      destruct H as (ds & rest & is & -> & F & O & R). exists (f :: ds), rest, (i :: is). split; [reflexivity|].
      assert (DD : s_data (disk c) i = s_data s i) by (destruct S as (_ & -> & _); reflexivity).
      split; [constructor; [rewrite <- (stat_disk s (disk c) _ S); exact SI|exact F]|]. split; [|exact R].
      rewrite O. cbn [set_disk c_out]. rewrite <- app_assoc, DD. reflexivity.
    + injection H as <- <-. exists [], (f :: fs), []. split; [reflexivity|]. split; [constructor|].
      split; [cbn; rewrite app_nil_r; reflexivity|]. split; discriminate.
Qed.

Lemma hash_cmd_an : forall V g c o c', g "input"%string <> [] -> all_or_nothing (disk c) ->
  run_command V CmdHash g c = (o, c') ->
  exists ds rest is, g "input"%string = ds ++ rest
    /\ Forall2 (fun f i => stat (disk c) (os_path f) = Some (NFile i)) ds is
    /\ c_out c' = c_out c ++ map (fun fi => NHash (fst fi) (hex_encode (ce_blake3 V (s_data (disk c) (snd fi)))))
                                 (combine ds is)
    /\ (o = Ok tt <-> rest = []).
Proof.
  intros V g c o c' GI A H. rewrite (hash_cmd_run V g c GI) in H.
  exact (hash_files_an V (disk c) _ _ _ _ H A (same_disk_refl _)).
Qed.
