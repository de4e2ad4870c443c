(** Every successful run of pack passes through states with the archive in plain. *)
From Coq Require Import List Arith NArith ZArith Ascii String Bool Lia.
From Verif Require Import Bytes Outcome IO Primitives Crypto Header Stream KeyModel EncDec.
From Verif Require Import Overwrite Hash FS Erase Archive Cli.
From Verif Require Import IOFacts FSSpec FSFacts ArchiveSpec ArchiveWalk ArchiveProofs EraseProofs EraseDirProofs WorldFrames UnpackProofs PackProofs ArchiveResults.
From Verif Require ToolProofs.
From Verif Require Import RestoreSpec RestoreNames RestoreDirs RestoreFiles RestorePack RestoreManySpec RestoreProofs.
From Verif Require Import CliSpec CliKeys CliRuns CliCommands CliProofs CliPack.
From Verif Require Import PackPathSpec PackPath CrashSpec CrashLib CrashLog CrashProofs CrashTake CrashPack.
Import ListNotations.
Local Open Scope nat_scope.
Local Open Scope list_scope.
Strategy 1000 [walk MAX_LINKS resolve].

Lemma told_added : forall s s', told s s' -> exists es, added s s' es /\ same_files (redo es s) s'.
Proof.
  intros s s' (es & SF). exists es. split; [|exact SF]. destruct SF as (_ & _ & _ & _ & _ & L).
  unfold added. rewrite L, redo_log. reflexivity.
Qed.

Lemma pack_exposed : forall E Z pick bs req s tr a' zs, 0 < bs -> same_opt (pr_out req) (pr_hdr req) = false ->
  no_faults s -> (forall h, In (EFile h) (pr_files req) -> h_ino h < s_next s) ->
  fst (pack_add bs (pr_files req) [] s) = (Ok tt, zs) ->
  pack_execute_bs E Z pick bs req (s, tr) = (Ok tt, a') ->
  exists T e1 e2, resolve false s (temp_path pick s) = Some T /\ lookup (s_nodes s) T = None
    /\ added s (fst a') (e1 ++ e2)
    /\ at_place (redo e1 s) T = Some (SFile (s_next s) (z_encode Z (pr_compression req) zs)).
Proof.
  intros E Z pick bs req s tr a' zs BS NE NF FO PA H. unfold pack_execute_bs in H.
  apply bind_inv in H as [(tmp & a1 & H1 & H)|[(e & _ & X)|[(_ & X)|(_ & X)]]]; try discriminate.
  apply map_err_inv in H1 as [(x & H1 & X)|[(e & _ & X)|[(_ & X)|(_ & X)]]]; try discriminate.
  injection X as <-. apply zoom_inv in H1 as (s1 & H1 & ->). cbn [fst] in H1.
  pose proof (t_temp pick _ _ _ H1) as TO1.
  apply (create_temp_any True) in H1 as [[_ X]|(T & plan & RT & LT & X & TM & ZD & PL)]; [discriminate|].
  injection X as ->. rewrite (PL NF) in *. set (h0 := mkHandle _ _ _ _) in H.
  apply bind_inv in H as [(r1 & a2 & H1 & H)|[(e & _ & X)|[(_ & X)|(_ & X)]]]; try discriminate.
  cbn [fst snd] in H1. unfold lift_h in H1.
  pose proof (t_pack_archive Z bs req h0 s1) as TO2.
  destruct (pack_archive Z bs req h0 s1) as [[o2 h2] s2] eqn:PK. cbn [snd] in TO2.
  destruct o2 as [[]|e| |]; try discriminate. injection H1 as <- <-.
  assert (D2 : s_nodes s2 = s_nodes s1 /\ s_data s2 (s_next s) = z_encode Z (pr_compression req) zs).
  { unfold pack_archive in PK. destruct (pack_add bs (pr_files req) [] s1) as [[o zs'] s3] eqn:ADD.
    pose proof (pack_add_state _ _ _ _ _ _ _ ADD) as ES. subst s3.
    assert (X : fst (pack_add bs (pr_files req) [] s1) = fst (pack_add bs (pr_files req) [] s)).
    { apply (pack_add_data bs s1). intros h I. apply (tm_data _ _ _ _ TM). pose proof (FO h I). lia. }
    rewrite ADD, PA in X. injection X as -> ->.
    destruct (put_archive_calm (z_encode Z (pr_compression req) zs) h0 s1 eq_refl eq_refl ZD) as (h' & s' & PUT & ST & DD & _).
    rewrite PUT in PK. injection PK as _ <-. split; [apply ST|exact DD]. }
  destruct D2 as [N2 D2].
  assert (TO3 : told s2 (fst a')).
  { cbv zeta in H.
    apply bind_inv in H as [(cap & a3 & H1 & H)|[(e & _ & X)|[(_ & X)|(_ & X)]]]; try discriminate.
    apply map_err_inv in H1 as [(x & H1 & _)|[(e & _ & X)|[(_ & X)|(_ & X)]]]; try discriminate.
    apply zoom_inv in H1 as (s3 & H1 & ->). cbn [fst snd] in H1.
    pose proof (t_file_len _ _ _ _ H1) as T3. eapply told_trans; [exact T3|].
    set (req' := mkEncReq _ _ _ _) in H. match type of H with context [run_world _ _ _ _ ?x] => set (a3 := x) in * end.
    change s3 with (fst a3).
    pose proof (a_run_world (encrypt_execute_bs E bs req') h2 (pr_out req) (pr_hdr req) a3
                  (wl_encrypt E bs req') (kin_encrypt E bs req' BS) NE) as G.
    cbn [snd] in H. destruct (run_world _ _ _ _ a3) as [[o1 [h4 h5]] a4]. cbn [snd] in G.
    assert (TT : forall x : outcome enc_error unit, always at_
      (on_sys (map_err (fun _ => PkFinishArchive) (wipe_temp h4 cap 2)) ;; map_err PkEncrypt (lift x))%m).
    { intros x0. apply (always_bind at_ at_trans).
      - apply a_sys, (always_map_err told), t_wipe.
      - intros _. apply (always_map_err at_), (always_lift at_ at_refl). }
    destruct o1; try discriminate; (eapply told_trans; [exact G|]); eapply TT; exact H. }
  destruct (told_added _ _ (told_trans _ _ _ TO1 TO2)) as (e1 & A1 & SF1).
  destruct (told_added _ _ TO3) as (e2 & A2 & _).
  exists T, e1, e2. split; [exact RT|]. split; [exact LT|]. split.
  { unfold added in *. rewrite A2, A1, app_assoc. reflexivity. }
  rewrite <- (alike_place _ _ T (alike_files _ _ SF1)). unfold at_place.
  rewrite N2, (tm_nodes _ _ _ _ TM), lookup_add, cpath_eqb_refl by exact LT. rewrite D2. reflexivity.
Qed.

Lemma archive_exposed : forall V g c c' output dirs, alias_told V ->
  env_ok (ce_E V) -> zip_ok (ce_Z V) ->
  tree_ok (disk c) -> no_faults (disk c) -> inodes_ok (disk c) ->
  given g "output" output -> to_pack g (disk c) output dirs ->
  run_command V CmdPack g c = (Ok tt, c') ->
  exists k name T i l es, killed (disk c) (disk c') k
    /\ resolve false (disk c) (path_push (s_tmp (disk c)) (mkPath false [Nm name])) = Some T
    /\ at_place (disk c) T = None /\ at_place k T = Some (SFile i l)
    /\ z_decode (ce_Z V) l = Some es
    /\ forall d rel j data, In d dirs -> at_place (disk c) (snd d ++ rel) = Some (SFile j data) ->
         exists e, In e es /\ zr_data e = data.
Proof.
  intros V g c c' output dirs VA EO ZO TO NF IO GO TP H.
  destruct (pack_path _ _ _ _ _ _ _ EO ZO TO NF IO GO TP H) as (_ & _ & PP).
  destruct PP as [(X & _)|(p & pp & a & n & o1 & c1 & PM & HT & RES)]; [congruence|].
  destruct RES as [(X & Y & _)|(_ & PF & _ & _ & PC)]; [congruence|].
  destruct PC as (raw & ho & fh & s4 & s5 & s7 & req & tr & a6 & PC).
  destruct PC as [[_ [SD4 _] _ CW HX] (R1 & R2 & R3) LI PE SD1 (TO7 & NF7 & IO7) PD7 SAME AP W7].
  rewrite printed_disk in *.
  assert (SO : same_opt (pr_out req) (pr_hdr req) = false).
  { rewrite R1, R2. destruct fh as [hh|]; [|reflexivity]. cbn. unfold same_file. apply Nat.eqb_neq.
    specialize (AP hh eq_refl). congruence. }
  pose proof (tp_apart _ _ _ _ TP) as APD.
  pose proof (listed_items s7 dirs TO7 PD7 NF7 _ LI) as FI.
  assert (T7 : told (disk c) s7).
  { eapply told_trans; [apply told_same, same_disk_files, SD4|]. eapply told_trans; [exact (t_create_or_write _ _ _ _ CW)|].
    destruct (cp_header p) as [h|].
    - destruct HX as (hh & _ & CW2). exact (t_create_or_write _ _ _ _ CW2).
    - destruct HX as [_ ->]. apply told_refl. }
  assert (BS : 0 < BLOCK_SIZE) by apply ToolProofs.BLOCK_SIZE_pos.
  destruct (pack_exposed (ce_E V) (ce_Z V) (ce_pick V) BLOCK_SIZE req s7 tr a6 (map (zent_it s7) (items s7 dirs)) BS SO NF7)
    as (T & e1 & e2 & RT & LT & A6 & AT).
  { intros h I. rewrite FI in I. eapply items_inodes; eauto. }
  { rewrite FI. apply items_packed; assumption. }
  { exact PE. }
  assert (TF : told (disk c1) (disk c')).
  { unfold pack_finish in PF. destruct (pp_erase pp).
    - apply (c_each_ (fun f => secure_erase V f 1%Z (cp_force p)) (g "input"%string) (fun x => c_secure_erase V x 1%Z (cp_force p)) _ _ _ PF).
    - unfold ret in PF. injection PF as <-. apply told_refl. }
  destruct (told_added _ _ T7) as (e0 & A0 & SF0). destruct (told_added _ _ TF) as (e3 & A3 & _).
  exists (redo (e0 ++ e1) (disk c)), (fst (ce_pick V (s_rng s7))), T, (s_next s7). do 2 eexists.
  split.
  { exists ((e0 ++ e1) ++ (e2 ++ e3)), ((e0 ++ e1) ++ (e2 ++ e3)), (e0 ++ e1).
    split; [|split; [constructor|split; [constructor|reflexivity]]].
    destruct SD1 as (_ & _ & _ & _ & _ & L1). unfold added in *. rewrite A3, L1, A6, A0, !app_assoc. reflexivity. }
  split.
  { rewrite <- (ow_resolve false _ _ _ _ W7), <- RT. f_equal. unfold temp_path, path_push. cbn [p_abs].
    rewrite (ow_tmp _ _ _ W7). reflexivity. }
  split.
  { unfold at_place. destruct (ow_nodes _ _ _ W7 T) as [E|(L & _)]; [rewrite <- E, LT|rewrite L]; reflexivity. }
  split.
  { rewrite <- AT, redo_app. apply alike_place, redo_alike, alike_files.
    destruct SF0 as (S1 & S2 & S3 & S4 & S5 & S6). repeat split; symmetry; auto. }
  split.
  { rewrite R3. apply ZO. apply names_it_nodup; assumption. }
  intros d rel j data ID AD. rewrite <- (SAME d) in AD by (exact ID || (exists rel; reflexivity)).
  assert (IR : In rel (all_rels s7 (snd d))).
  { rewrite Forall_forall in PD7. destruct (PD7 d ID) as [K1 K2 K3 K4 K5].
    apply (rel_there s7 (fst d) (snd d)); try assumption. unfold at_place in AD.
    destruct (lookup (s_nodes s7) (snd d ++ rel)); [discriminate|discriminate AD]. }
  assert (IT : In (d, rel) (items s7 dirs)) by (apply in_items; split; assumption).
  exists (let e := zent_it s7 (d, rel) in mkZread (ze_name e) true (ze_data e) true). split.
  { apply in_map_iff. exists (zent_it s7 (d, rel)). split; [reflexivity|]. apply in_map, IT. }
  cbn [zr_data]. unfold zent_it, zent_of, stored_data. change (iq (d, rel)) with (snd d). change (ir (d, rel)) with rel.
  unfold at_place in AD. destruct (lookup (s_nodes s7) (snd d ++ rel)) as [[|i|t]|]; try discriminate AD.
  injection AD as _ <-. reflexivity.
Qed.
