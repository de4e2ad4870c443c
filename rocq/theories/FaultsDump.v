(** Dumping a header while calls fail. *)
From Coq Require Import List Arith NArith ZArith Ascii String Bool Lia.
From Verif Require Import Bytes Outcome IO Primitives Crypto Header Stream KeyModel EncDec KeyOps HeaderOps.
From Verif Require Import Overwrite Hash FS Erase Archive Cli CliTools.
From Verif Require Import BytesFacts HeaderSpec HeaderFacts HeaderProofs IOSpec IOFacts FileSpec FileFacts FileProofs.
From Verif Require Import KeySpec KeyFacts KeyProofs DecSim KeyResults HeaderOpsProofs WorldFrames.
From Verif Require Import FSSpec FSFacts ArchiveSpec EraseProofs UnpackProofs PackProofs.
From Verif Require Import CliSpec CliKeys CliRuns CliProofs CliSafety CliToolsSpec CliToolsRuns CliToolsHeader.
From Verif Require Import FaultsSpec FaultsRuns FaultsTools.
Import ListNotations.
Local Open Scope nat_scope.
Local Open Scope list_scope.

Definition calm_both (w v : world) : Prop := calm_of (w_in w) (w_in v) /\ calm_of (w_out w) (w_out v).

Lemma ob_in : forall {E A} (m : M dev E A), ok_sim calm_of m -> ok_sim calm_both (on_in m).
Proof.
  intros E A m H w v a w' [R1 R2] X. unfold on_in, zoom in *. destruct (m (w_in w)) as [o d] eqn:Y.
  injection X as -> <-. destruct (H _ _ _ _ R1 Y) as (e & Z & R). rewrite Z. eexists. split; [reflexivity|].
  split; [exact R|exact R2].
Qed.
Lemma ob_out : forall {E A} (m : M dev E A), ok_sim calm_of m -> ok_sim calm_both (on_out m).
Proof.
  intros E A m H w v a w' [R1 R2] X. unfold on_out, zoom in *. destruct (m (w_out w)) as [o d] eqn:Y.
  injection X as -> <-. destruct (H _ _ _ _ R2 Y) as (e & Z & R). rewrite Z. eexists. split; [reflexivity|].
  split; [exact R1|exact R].
Qed.
Lemma dump_calm : ok_sim calm_both header_dump.
Proof.
  unfold header_dump. apply os_bind; [apply os_map_err, ob_in, os_deserialize|]. intros ha.
  apply os_map_err, ob_out, os_header_write.
Qed.

Lemma dump_rest_done : forall input output i plan c c', all_or_nothing (disk c) -> no_short plan ->
  dump_rest input output (EFile (mkHandle (os_path input) i 0 plan)) c = (Ok tt, c') ->
  exists j h aad b, stat (disk c') (os_path output) = Some (NFile j) /\ s_data (disk c') j = b
    /\ serialize h = Ok b /\ (i <> j -> header_is (s_data (disk c) i) h aad).
Proof.
  intros input output i plan c c' AN NSI H. unfold dump_rest in H.
  unfold bind at 1, up at 1 in H. rewrite map_err_run, storage_run in H.
  destruct (create_or_write (os_path output) (disk c)) as [r s2] eqn:CW. cbn [fst snd] in H.
  destruct (oa_create_or_write _ _ _ _ CW AN) as [_ NSO].
  destruct (create_or_write_any _ _ _ _ CW) as [(e & -> & SD)|(ho & -> & HP & PO & DE & CWD & TM & RN & OTH & NF & CASES)].
  { discriminate H. }
  specialize (NSO ho eq_refl). pose proof (cow_stat _ _ _ _ CW) as STO.
  set (hi := mkHandle (os_path input) i 0 plan) in *. set (c2 := set_disk s2 c) in *. cbn [omap] in H.
  unfold bind, up in H. rewrite !map_err_run in H. cbn [try_handle ret fst snd omap] in H.
  cbn [try_handle ret fst snd omap] in H.
  destruct (header_dump (two_world hi ho c2)) as [ro w] eqn:HD.
  assert (RM : map_err THop header_dump (two_world hi ho c2) = (omap THop ro, w)) by (rewrite map_err_run, HD; reflexivity).
  rewrite (on_handles_run _ _ _ _ _ _ RM) in H.
  destruct (dump_any _ _ _ HD) as ([UI1 UI2] & _ & _).
  destruct ro as [[]|e| |]; cbn [omap] in H; try discriminate H.
  change (w_in (two_world hi ho c2)) with (mkDev (s_data s2 i) 0 plan []) in UI1, UI2.
  cbn [d_data d_log] in UI1, UI2.
  assert (HO : ho = mkHandle (h_path ho) (h_ino ho) 0 (h_plan ho)) by (destruct ho; cbn in PO; subst; reflexivity).
  destruct (dumped hi ho w c2 s2 i (h_ino ho) plan (h_plan ho) eq_refl eq_refl HO UI1 UI2)
    as (TREE & OTH2 & DJ & es & AD & ES).
  set (c3 := after_two w hi ho c2) in *.
  rewrite map_err_run, storage_run in H.
  destruct (flush_file (EFile ho) (disk c3)) as [rf s4] eqn:FL. cbn [fst snd] in H. injection H as _ <-.
  destruct (flush_file_any _ _ _ _ FL) as (SD4 & _). rewrite set_disk_disk.
  set (v := mkWorld (dev_at (s_data s2 i) 0) (dev_of []) (dev_of []) (s_rng s2) []).
  assert (CB : calm_both (two_world hi ho c2) v).
  { split.
    - change (w_in (two_world hi ho c2)) with (mkDev (s_data s2 i) 0 plan []). unfold calm_of, v, dev_at.
      cbn [w_in d_data d_pos d_plan]. auto.
    - change (w_out (two_world hi ho c2)) with (handle_dev s2 ho). unfold calm_of, v, dev_of, handle_dev.
      cbn [w_out d_data d_pos d_plan]. rewrite DE, PO. auto. }
  destruct (dump_calm _ _ _ _ CB HD) as (v' & HV & (_ & DV & _)).
  destruct (dump_any _ _ _ HV) as (_ & _ & [(h & aad & d' & b & n & _ & DS & SR & NB & WR & FULL)|(e & X & _)]); [|discriminate X].
  specialize (FULL eq_refl). subst n. rewrite firstn_all in WR.
  exists (h_ino ho), h, aad, b. split.
  { rewrite (stat_disk _ _ _ SD4). unfold stat. destruct TREE as (TN & TC & _).
    rewrite TN, (resolve_nodes true s2 (disk c3)) by (symmetry; assumption). exact STO. }
  split.
  { destruct SD4 as (_ & -> & _). rewrite DJ, <- DV. eapply wrote_empty; [exact WR|reflexivity|reflexivity]. }
  split; [exact SR|]. intros NI. rewrite <- (OTH i NI). exists d'. exact DS.
Qed.

Lemma dump_done : forall input output force c c', inodes_ok (disk c) -> all_or_nothing (disk c) ->
  dump input output force c = (Ok tt, c') ->
  exists i j h aad b, stat (disk c) (os_path input) = Some (NFile i) /\ stat (disk c') (os_path output) = Some (NFile j)
    /\ i <> j /\ header_is (s_data (disk c) i) h aad /\ serialize h = Ok b /\ s_data (disk c') j = b.
Proof.
  intros input output force c c' IOK AN H.
  destruct (dump_path _ _ _ _ _ _ IOK H) as (_ & _ & _ & _ & DH & _).
  destruct (DH eq_refl) as (i & j & plan & h & aad & d' & b & n & ST & SJ & NIJ & DS & SR & NB & DJ & _).
  apply read_is in DS. clear DH plan d'.
  exists i, j, h, aad, b. split; [exact ST|]. split; [exact SJ|]. split; [exact NIJ|]. split; [exact DS|]. split; [exact SR|].
  rewrite dump_eq in H. unfold bind at 1, up at 1 in H. rewrite map_err_run, storage_run in H.
  destruct (read_file (os_path input) (disk c)) as [r s1] eqn:RF. cbn [fst snd] in H.
  destruct (oa_read_file _ _ _ _ RF AN) as [AN1 NS].
  destruct (read_file_any _ _ _ _ RF) as (SD & CA & CASES).
  set (c1 := set_disk s1 c) in *.
  destruct r as [fi|e| |]; cbn [omap] in H; try discriminate H.
  unfold bind at 1, up at 1 in H. rewrite map_err_run in H.
  destruct (check_or_exit output force c1) as [rc c2] eqn:CK. cbn [fst snd] in H.
  destruct (check_or_exit_any _ _ _ _ _ CK) as (CA2 & _).
  assert (D2 : disk c2 = s1) by (unfold disk; rewrite CA2; reflexivity).
  destruct rc as [[]|e| |]; cbn [omap] in H; try discriminate H.
  destruct CASES as [(X & STD)|[(i0 & plan & X & ST0 & PL)|[X _]]]; [| |discriminate X]; injection X as ->.
  { destruct (dump_rest_dir _ _ _ _ _ _ H) as ((e & X) & _). discriminate X. }
  rewrite ST in ST0. injection ST0 as <-.
  assert (AN2 : all_or_nothing (disk c2)) by (rewrite D2; exact AN1).
  destruct (dump_rest_done _ _ _ _ _ _ AN2 (NS _ eq_refl) H) as (j0 & h0 & aad0 & b0 & SJ0 & DJ0 & SR0 & HI0).
  rewrite SJ in SJ0. injection SJ0 as <-. specialize (HI0 NIJ). rewrite D2 in HI0.
  pose proof (proj1 (proj2 SD)) as DT. rewrite DT in HI0.
  destruct (header_is_unique _ _ _ _ _ DS HI0) as [-> _]. congruence.
Qed.
