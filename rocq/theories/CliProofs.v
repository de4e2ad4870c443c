(** Proofs about whole runs of the command line program. *)
From Coq Require Import List Arith NArith ZArith Ascii String Bool Lia.
From Verif Require Import Bytes Outcome IO Primitives Crypto Header Stream KeyModel EncDec.
From Verif Require Import Overwrite Hash FS Erase Archive Cli.
From Verif Require Import BytesFacts HeaderSpec HeaderFacts IOSpec IOFacts FileFacts FileProofs.
From Verif Require Import FSSpec FSFacts ArchiveSpec EraseProofs UnpackProofs PackProofs RestorePack.
From Verif Require Import RestoreProofs CliSpec CliKeys CliRuns CliCommands.
Import ListNotations.
Local Open Scope nat_scope.
Local Open Scope list_scope.

(** ** Erasing *)

Lemma secure_erase_file : forall V input n force c o c' i,
  secure_erase V input n force c = (o, c') -> stat (disk c) (os_path input) = Some (NFile i) ->
  (o = Err (CStorage StOpenRead) /\ same_disk (disk c) (disk c') /\ ~ no_faults (disk c))
  \/ exists s1 o1, same_disk (disk c) s1 /\ (no_faults (disk c) -> s1 = disk c)
       /\ run (erase_execute (os_path input) n) s1 = (o1, disk c')
       /\ o = omap CErase o1.
Proof.
  intros V input n force c o c' i H ST. unfold secure_erase, bind in H.
  destruct (storage (read_file (os_path input)) c) as [r c1] eqn:RF.
  destruct (storage_inv _ _ _ _ RF) as (r0 & s1 & RF' & -> & ->). clear RF.
  destruct (read_file_any _ _ _ _ RF') as (D1 & C1 & [[-> X]|[(j & plan & -> & STJ & PL)|[-> NO]]]);
    cbn [omap] in H.
  - congruence.
  - cbn [entry_is_dir] in H. rewrite on_fs_run, map_err_run, set_disk_disk in H. cbn [fst snd] in H.
    destruct (run (erase_execute (os_path input) n) s1) as [o1 s2] eqn:ER. cbn [fst snd] in H.
    injection H as <- <-. right. exists s1, o1. rewrite set_disk_disk. auto.
  - injection H as <- <-. left. split; [reflexivity|]. split; [exact D1|]. intros NF.
    destruct (NO NF _ ST) as [t T]. discriminate.
Qed.

Lemma erase_stage_of : forall s p n s1 o s' i, same_disk s s1 -> stat s p = Some (NFile i) ->
  run (erase_execute p n) s1 = (o, s') ->
  (same_disk s s' /\ o = Err EraOpenFile) \/ (erase_stage s p i s' /\ s_data s' i = [] /\
     ((o = Ok tt /\ stat s' p = None) \/ exists e, o = Err e)).
Proof.
  intros s p n s1 o s' i D ST H.
  assert (ST1 : stat s1 p = Some (NFile i)) by (rewrite (stat_disk _ _ _ D); exact ST).
  pose proof (erase_holds _ _ _ _ _ H) as (_ & OKH & _).
  destruct (erase_any _ _ _ _ _ H) as [(-> & D' & _)|(j & q & STJ & RQ & CW & TM & NX & DO & DE & (es & AD & ES) & NO)].
  - left. split; [eapply same_disk_trans; eauto|reflexivity].
  - right. assert (j = i) by congruence. subst j.
    pose proof (resolve_disk false _ _ p D) as RD. rewrite RQ in RD.
    destruct D as (DN & DD & DX & DC & DT & DL). split; [constructor|split; [exact DE|]].
    + exact ST.
    + intros j J. rewrite (DO j J), DD. reflexivity.
    + exists q, es. split; [congruence|]. split; [unfold added in *; congruence|].
      cbn. destruct ES as [(_ & [->| ->])|(_ & ->)]; auto.
    + destruct NO as [(_ & N & _)|(N & _)]; [right; exists q; split; congruence|left; congruence].
    + destruct NO as [(-> & _)|(_ & _ & EX)]; [|right; exact EX]. left. split; [reflexivity|].
      destruct (OKH eq_refl) as (i' & q' & _ & _ & SN & _). exact SN.
Qed.

(** ** Whole runs of encrypt and decrypt *)

Lemma same_name_run : forall V cmd g c o c' input, In cmd [CmdEncrypt; CmdDecrypt] ->
  given g "input" input -> given g "output" input ->
  run_command V cmd g c = (o, c') ->
  c_a c' = c_a c /\ (o = Err CSameName \/ (o = Panic /\ cmd = CmdDecrypt /\ ce_debug V = true)).
Proof.
  intros V cmd g c o c' input [<-|[<-|[]]] GI GO H.
  - destruct (encrypt_cmd_run V g c _ _ GI GO) as (p & n & _ & R). rewrite R in H.
    unfold encrypt_stream in H. rewrite String.eqb_refl in H. injection H as <- <-. auto.
  - destruct (decrypt_cmd_run V g c _ _ GI GO) as [R1 R2]. destruct (ce_debug V).
    + destruct (R2 eq_refl) as [n R]. rewrite R in H. injection H as <- <-. auto.
    + destruct (R1 eq_refl) as (p & n & _ & R). rewrite R in H.
      unfold decrypt_stream in H. rewrite String.eqb_refl in H. injection H as <- <-. auto.
Qed.

Lemma header_targets_of : forall V cmd g p output, params_of V cmd g p ->
  os_path output :: header_targets p = write_targets g output.
Proof.
  intros V cmd g p output PO. unfold header_targets, write_targets. rewrite (po_header _ _ _ _ PO).
  destruct (g "header"%string); reflexivity.
Qed.

Lemma encrypt_run : forall V g c o c' input output,
  given g "input" input -> given g "output" output -> input <> output ->
  run_command V CmdEncrypt g c = (o, c') ->
  exists p n o1 c1, params_of V CmdEncrypt g p
    /\ encrypt_main V input output p (algorithm_asked g) (printed n c) = (o1, c1)
    /\ ((o1 <> Ok tt /\ o = o1 /\ c' = c1)
        \/ (o1 = Ok tt
            /\ secure_erase V input (passes_of (g "erase"%string)) (cp_force p) c1 = (o, c'))).
Proof.
  intros V g c o c' input output GI GO NE H.
  destruct (encrypt_cmd_run V g c _ _ GI GO) as (p & n & PO & R). rewrite R in H.
  rewrite encrypt_stream_eq in H by exact NE. unfold bind in H.
  destruct (encrypt_main V input output p (algorithm_asked g) (printed n c)) as [o1 c1] eqn:EM.
  exists p, n, o1, c1. split; [exact PO|]. split; [exact EM|].
  unfold finish in H. rewrite (po_erase _ _ _ _ PO) in H.
  destruct o1 as [[]|e| |]; [right; auto|left|left|left]; injection H as <- <-; (split; [discriminate|auto]).
Qed.

Lemma decrypt_run : forall V g c o c' input output, ce_debug V = false ->
  given g "input" input -> given g "output" output -> input <> output ->
  run_command V CmdDecrypt g c = (o, c') ->
  exists p n o1 c1, params_of V CmdDecrypt g p
    /\ decrypt_main V input output p (printed n c) = (o1, c1)
    /\ ((o1 <> Ok tt /\ o = o1 /\ c' = c1)
        \/ (o1 = Ok tt
            /\ secure_erase V input (passes_of (g "erase"%string)) (cp_force p) c1 = (o, c'))).
Proof.
  intros V g c o c' input output DB GI GO NE H.
  destruct (decrypt_cmd_run V g c _ _ GI GO) as [R1 _]. destruct (R1 DB) as (p & n & PO & R). rewrite R in H.
  rewrite decrypt_stream_eq in H by exact NE. unfold bind in H.
  destruct (decrypt_main V input output p (printed n c)) as [o1 c1] eqn:EM.
  exists p, n, o1, c1. split; [exact PO|]. split; [exact EM|].
  unfold finish in H. rewrite (po_erase _ _ _ _ PO) in H.
  destruct o1 as [[]|e| |]; [right; auto|left|left|left]; injection H as <- <-; (split; [discriminate|auto]).
Qed.

Lemma two_stages_erase : forall V input n force c1 o c' s ts i,
  only_writes s ts (disk c1) -> stat s (os_path input) = Some (NFile i) ->
  secure_erase V input n force c1 = (o, c') -> two_stages s ts (os_path input) o (disk c').
Proof.
  intros V input n force c1 o c' s ts i W ST H. exists (disk c1). split; [exact W|].
  pose proof (ow_stat_kept _ _ _ _ _ W ST) as ST1.
  destruct (secure_erase_file _ _ _ _ _ _ _ _ H ST1) as [(-> & D & _)|(s1 & o1 & D & _ & ER & ->)].
  - left. split; [discriminate|exact D].
  - destruct (erase_stage_of _ _ _ _ _ _ _ D ST1 ER) as [(D' & ->)|(ES & DE & RES)].
    + left. split; [discriminate|exact D'].
    + right. exists i. do 4 (split; [assumption|]).
      destruct RES as [(-> & SN)|(e & ->)]; [left; auto|right; cbn; eauto].
Qed.

Lemma encrypt_stages : forall V g c o c' input output,
  given g "input" input -> given g "output" output -> input <> output ->
  run_command V CmdEncrypt g c = (o, c') ->
  two_stages (disk c) (write_targets g output) (os_path input) o (disk c').
Proof.
  intros V g c o c' input output GI GO NE H.
  destruct (encrypt_run _ _ _ _ _ _ _ GI GO NE H) as (p & n & o1 & c1 & PO & EM & RES).
  destruct (encrypt_main_any _ _ _ _ _ _ _ _ EM) as (W & NER & OK).
  rewrite (header_targets_of _ _ _ _ _ PO), printed_disk in W.
  destruct RES as [(NO & -> & ->)|(-> & SE)].
  - exists (disk c1). split; [exact W|]. left. split; [exact NO|apply same_disk_refl].
  - destruct (OK eq_refl) as (i & raw & hi & ho & hh & a1 & a2 & EN).
    eapply two_stages_erase; [exact W| |exact SE]. exact (en_input _ _ _ _ _ _ _ _ _ _ _ _ _ _ EN).
Qed.

Lemma decrypt_stages : forall V g c o c' input output, ce_debug V = false ->
  given g "input" input -> given g "output" output -> input <> output ->
  run_command V CmdDecrypt g c = (o, c') ->
  two_stages (disk c) [os_path output] (os_path input) o (disk c').
Proof.
  intros V g c o c' input output DB GI GO NE H.
  destruct (decrypt_run _ _ _ _ _ _ _ DB GI GO NE H) as (p & n & o1 & c1 & PO & EM & RES).
  destruct (decrypt_main_any _ _ _ _ _ _ _ EM) as (W & NER & OK).
  rewrite printed_disk in W.
  destruct RES as [(NO & -> & ->)|(-> & SE)].
  - exists (disk c1). split; [exact W|]. left. split; [exact NO|apply same_disk_refl].
  - destruct (OK eq_refl) as (i & raw & hi & ho & hh & a1 & a2 & EN).
    eapply two_stages_erase; [exact W| |exact SE]. exact (de_input _ _ _ _ _ _ _ _ _ _ _ _ _ EN).
Qed.

Lemma ow_untouched : forall s ts s1 i, only_writes s ts s1 -> i < s_next s ->
  (forall t, In t ts -> stat s t <> Some (NFile i)) -> untouched s s1 i.
Proof.
  intros s ts s1 i W LT NT.
  assert (NM : ~ may_write s ts i).
  { intros [L|(t & I & ST)]; [lia|exact (NT t I ST)]. }
  split; [apply (ow_data _ _ _ W i NM)|].
  destruct (ow_events _ _ _ W) as (es & AD & F). exists es. split; [exact AD|].
  eapply Forall_impl; [|exact F]. intros e WE. destruct e; cbn in *; try exact WE.
  - intros ->. lia.
  - intros ->. exact (NM WE).
  - intros ->. exact (NM WE).
Qed.

(** ** Encrypting and decrypting again *)

Lemma read_file_calm : forall s p i, no_faults s -> stat s p = Some (NFile i) ->
  read_file p s = (Ok (EFile (mkHandle p i 0 [])), s).
Proof.
  intros s p i NF ST. destruct (read_file p s) as [o s'] eqn:H.
  destruct (read_file_any _ _ _ _ H) as (_ & C & [[-> X]|[(j & plan & -> & STJ & PL)|[-> NO]]]).
  - congruence.
  - rewrite (C NF), (PL NF). congruence.
  - destruct (NO NF _ ST) as [t T]. discriminate.
Qed.

Lemma create_free : forall s p q, no_faults s -> resolve false s p = Some q -> lookup (s_nodes s) q = None ->
  exists h s', create_or_write p s = (Ok (EFile h), s') /\ h_ino h = s_next s /\ h_pos h = 0 /\ h_plan h = []
    /\ no_faults s' /\ s_nodes s' = s_nodes s ++ [(q, NFile (s_next s))] /\ s_next s' = S (s_next s)
    /\ s_cwd s' = s_cwd s
    /\ s_data s' (s_next s) = [] /\ (forall j, j <> s_next s -> s_data s' j = s_data s j).
Proof.
  intros s p q NF R L. destruct (create_or_write p s) as [o s'] eqn:H.
  destruct (create_or_write_any _ _ _ _ H)
    as [(e & -> & D)|(h & -> & HP & PO & DE & CW & T & G & D & C & NEW)].
  - exfalso. destruct NF as [NF1 NF2]. unfold create_or_write, or_else, create_file, call_or, next_fault in H.
    rewrite NF1, R, L in H. unfold new_handle, next_plan in H. cbn [s_plans] in H. rewrite NF2 in H. discriminate.
  - exists h, s'. destruct (C NF) as [NF' PL].
    assert (X : h_ino h = s_next s /\ s_next s' = S (s_next s) /\ s_nodes s' = s_nodes s ++ [(q, NFile (s_next s))]).
    { destruct NEW as [(q' & R' & L' & HI & NX & N & _)|(ST & _)].
      - assert (q' = q) by congruence. subst q'. auto.
      - unfold stat in ST. destruct (resolve true s p) as [r|] eqn:RT; [|discriminate].
        rewrite (resolve_missing _ _ _ _ R L RT), L in ST. discriminate. }
    destruct X as (HI & NX & N). rewrite HI in *. auto 12.
Qed.

Lemma free_absent : forall s p q, resolve false s p = Some q -> lookup (s_nodes s) q = None -> stat s p = None.
Proof.
  intros s p q R L. unfold stat. destruct (resolve true s p) as [r|] eqn:RT; [|reflexivity].
  rewrite (resolve_missing _ _ _ _ R L RT). exact L.
Qed.

Definition dec_world (s : sys) (tr : trace) (hi ho : handle) (hh : option handle) : world :=
  mkWorld (handle_dev s hi) (handle_dev s ho) (opt_dev s hh) (s_rng s) tr.

Lemma no_faults_rest : forall s, no_faults s -> forall s', s_faults s' = s_faults s -> s_plans s' = s_plans s ->
  no_faults s'.
Proof. intros s [A B] s' C D. split; congruence. Qed.

(** The run, up to the erasing, when the library decrypts what it is given. *)
Lemma decrypt_forward : forall V input output p c i q raw t hp pt,
  no_faults (disk c) -> inodes_ok (disk c) ->
  stat (disk c) (os_path input) = Some (NFile i) ->
  match cp_header p, hp with
  | None, None => True
  | Some x, Some j => stat (disk c) (os_path x) = Some (NFile j)
  | _, _ => False
  end ->
  resolve false (disk c) (os_path output) = Some q -> lookup (s_nodes (disk c)) q = None ->
  yields V c (cp_key p) Direct raw t ->
  (forall w, d_plan (w_in w) = [] -> d_plan (w_out w) = [] -> d_plan (w_hdr w) = [] ->
     d_pos (w_in w) = 0 -> d_log (w_in w) = [] -> d_data (w_in w) = s_data (disk c) i ->
     (forall j, hp = Some j -> d_pos (w_hdr w) = 0 /\ d_data (w_hdr w) = s_data (disk c) j) ->
     d_pos (w_out w) = 0 -> d_data (w_out w) = [] ->
     exists w', decrypt_execute (ce_E V) (is_some hp) raw w = (Ok tt, w')
       /\ wrote (w_out w) (w_out w') pt) ->
  exists c1 j, decrypt_main V input output p c = (Ok tt, c1)
    /\ no_faults (disk c1) /\ s_next (disk c) <= j
    /\ lookup (s_nodes (disk c1)) q = Some (NFile j) /\ s_data (disk c1) j = pt
    /\ stat (disk c1) (os_path input) = Some (NFile i).
Proof.
  intros V input output p c i q raw t hp pt NF IO ST HP RQ LQ Y DEC. unfold decrypt_main.
  assert (AB : stat (disk c) (os_path output) = None) by (eapply free_absent; eauto).
  assert (CK : check_or_exit output (cp_force p) c = (Ok tt, c)).
  { unfold check_or_exit, bind, overwrite_check. fold (disk c). unfold exists_path. rewrite AB. reflexivity. }
  rewrite (bind_ok _ _ _ _ _ CK).
  assert (SD : set_disk (disk c) c = c).
  { unfold set_disk, disk. rewrite <- surjective_pairing. symmetry. apply cli_eta. }
  assert (RF : storage (read_file (os_path input)) c = (Ok (EFile (mkHandle (os_path input) i 0 [])), c)).
  { rewrite storage_run, (read_file_calm _ _ _ NF ST). cbn [fst snd omap]. rewrite SD. reflexivity. }
  rewrite (bind_ok _ _ _ _ _ RF).
  set (hh := match cp_header p, hp with Some x, Some j => Some (mkHandle (os_path x) j 0 []) | _, _ => None end).
  assert (RH : exists e, read_header p c = (Ok e, c) /\ ok_handle e = hh).
  { unfold read_header, hh. destruct (cp_header p) as [x|], hp as [j|]; try contradiction.
    - eexists. unfold bind. rewrite storage_run, (read_file_calm _ _ _ NF HP). cbn [fst snd omap]. rewrite SD.
      split; reflexivity.
    - exists None. split; reflexivity. }
  destruct RH as (e & RH & EH). rewrite (bind_ok _ _ _ _ _ RH).
  destruct (get_secret_ok _ _ _ _ _ _ NF Y) as (c2 & GS & _).
  destruct (get_secret_any _ _ _ _ _ _ GS) as (D2 & T2 & NF2 & _). specialize (NF2 NF).
  rewrite (bind_ok _ _ _ _ _ GS).
  assert (RQ2 : resolve false (disk c2) (os_path output) = Some q) by (rewrite (resolve_disk false _ _ _ D2); exact RQ).
  assert (LQ2 : lookup (s_nodes (disk c2)) q = None).
  { destruct D2 as (DN & _). rewrite DN. exact LQ. }
  assert (NX2 : s_next (disk c2) = s_next (disk c)) by apply D2.
  assert (DD2 : s_data (disk c2) = s_data (disk c)) by apply D2.
  destruct (create_free _ _ _ NF2 RQ2 LQ2) as (ho & s3 & CW & HI & PO & PL & NF3 & N3 & NX3 & CW3 & DE3 & DO3).
  assert (SC : storage (create_or_write (os_path output)) c2 = (Ok (EFile ho), set_disk s3 c2)).
  { rewrite storage_run, CW. reflexivity. }
  rewrite (bind_ok _ _ _ _ _ SC).
  erewrite bind_ok by reflexivity. erewrite bind_ok by reflexivity.
  set (hi := mkHandle (os_path input) i 0 []).
  rewrite EH.
  assert (NI : i < s_next (disk c)).
  { unfold stat in ST. destruct (resolve true (disk c) (os_path input)); [|discriminate]. exact (IO _ _ ST). }
  assert (NJ : forall j, hp = Some j -> j < s_next (disk c)).
  { intros j ->. destruct (cp_header p) as [x|]; [|contradiction].
    unfold stat in HP. destruct (resolve true (disk c) (os_path x)); [|discriminate]. exact (IO _ _ HP). }
  set (tr := snd (c_a c2)).
  destruct (DEC (dec_world s3 tr hi ho hh)) as (w' & DX & WR).
  { reflexivity. }
  { exact PL. }
  { unfold hh. destruct (cp_header p), hp; reflexivity. }
  { reflexivity. }
  { reflexivity. }
  { cbn [dec_world w_in handle_dev d_data hi h_ino]. rewrite DO3 by lia. rewrite DD2. reflexivity. }
  { intros j ->. unfold hh. destruct (cp_header p) as [x|]; [|contradiction].
    cbn [dec_world w_hdr opt_dev handle_dev d_pos d_data h_pos h_ino]. split; [reflexivity|].
    specialize (NJ j eq_refl). rewrite DO3 by lia. rewrite DD2. reflexivity. }
  { exact PO. }
  { cbn [dec_world w_out handle_dev d_data]. rewrite HI. exact DE3. }
  assert (IS : is_some hh = is_some hp).
  { unfold hh. destruct (cp_header p), hp; try contradiction; reflexivity. }
  assert (DF : exists a5, decrypt_files V raw hi ho hh (c_a (set_disk s3 c2)) = (Ok tt, a5)
             /\ s_data (fst a5) (h_ino ho) = pt /\ same_tree s3 (fst a5)).
  { unfold decrypt_files.
    assert (E1 : (same_file ho hi || same_opt ho hh)%bool = false).
    { unfold same_file, same_opt, hh. cbn [hi h_ino]. rewrite HI.
      replace (s_next (disk c2) =? i) with false by (symmetry; apply Nat.eqb_neq; lia).
      destruct (cp_header p) as [x|], hp as [j|]; try contradiction; [|reflexivity].
      unfold same_file. cbn [h_ino orb]. rewrite HI. specialize (NJ j eq_refl). apply Nat.eqb_neq. lia. }
    rewrite E1. unfold map_err, run_world. change (c_a (set_disk s3 c2)) with (s3, tr). cbn [fst snd].
    fold (dec_world s3 tr hi ho hh). rewrite IS, DX.
    eexists. split; [reflexivity|]. cbn [fst].
    assert (FR : run_world (decrypt_execute_bs (ce_E V) BLOCK_SIZE (is_some hp) raw) hi ho hh (s3, tr)
                 = ((Ok tt, (move_handle (w_in w') hi, move_handle (w_out w') ho)),
                    (with_rng (w_rng w') (put_opt (w_hdr w') hh (put_handle (w_out w') ho (put_handle (w_in w') hi s3))), w_tr w'))).
    { unfold run_world. cbn [fst snd]. fold (dec_world s3 tr hi ho hh).
      change (decrypt_execute_bs (ce_E V) BLOCK_SIZE (is_some hp) raw) with (decrypt_execute (ce_E V) (is_some hp) raw).
      rewrite DX. reflexivity. }
    destruct (decrypt_world _ _ _ _ _ _ _ _ _ _ _ _ FR) as (TR & _ & _ & _ & _ & _). cbn [fst] in TR.
    split; [|exact TR].
    destruct WR as (WD & _). cbn [dec_world w_out handle_dev d_data d_pos] in WD.
    rewrite HI, DE3, PO in WD. rewrite write_at_empty in WD.
    cbn [with_rng s_data]. unfold hh. destruct (cp_header p) as [x|], hp as [j|]; try contradiction; cbn [put_opt].
    - unfold put_handle at 1. cbn [with_data s_data h_ino]. specialize (NJ j eq_refl).
      rewrite set_data_neq by lia. unfold put_handle at 1. cbn [with_data s_data].
      unfold set_data. rewrite Nat.eqb_refl. exact WD.
    - unfold put_handle at 1. cbn [with_data s_data]. unfold set_data. rewrite Nat.eqb_refl. exact WD. }
  destruct DF as (a5 & DF & D5 & TR5).
  assert (OA : on_a (decrypt_files V raw hi ho hh) (set_disk s3 c2) = (Ok tt, set_a a5 (set_disk s3 c2))).
  { rewrite on_a_run, DF. reflexivity. }
  rewrite (bind_ok _ _ _ _ _ OA).
  assert (NF5 : no_faults (fst a5)).
  { destruct TR5 as (_ & _ & _ & _ & X & Y'). eapply no_faults_rest; eauto. }
  assert (FL : storage (flush_file (EFile ho)) (set_a a5 (set_disk s3 c2)) = (Ok tt, set_a a5 (set_disk s3 c2))).
  { rewrite storage_run, set_a_disk. destruct (flush_file (EFile ho) (fst a5)) as [of sf] eqn:FF.
    destruct (flush_file_any _ _ _ _ FF) as (_ & _ & _ & CF). destruct (CF NF5) as [-> OKF].
    rewrite (OKF ho eq_refl). cbn [fst snd omap]. unfold set_disk, set_a. cbn [c_a fst snd c_stdin c_tty c_out].
    rewrite <- surjective_pairing. reflexivity. }
  rewrite (bind_ok _ _ _ _ _ FL).
  set (c5 := set_a a5 (set_disk s3 c2)).
  assert (ST5 : stat (disk c5) (os_path input) = Some (NFile i)).
  { unfold c5. rewrite set_a_disk. destruct TR5 as (TN & TC & _). unfold stat.
    rewrite TN, (resolve_nodes true s3 (fst a5)) by congruence.
    assert (W3 : only_writes (disk c2) [os_path output] s3).
    { destruct (ow_create_or_write (disk c2) [os_path output] (disk c2) (os_path output) _ _ (ow_refl _ _) (or_introl eq_refl) CW) as [W _].
      exact W. }
    assert (ST2 : stat (disk c2) (os_path input) = Some (NFile i)) by (rewrite (stat_disk _ _ _ D2); exact ST).
    exact (ow_stat_kept _ _ _ _ _ W3 ST2). }
  assert (HX : exists c1, (if cp_hash p then hash_files V [input] else ret tt) c5 = (Ok tt, c1) /\ c_a c1 = c_a c5).
  { destruct (cp_hash p); [|exists c5; split; reflexivity].
    destruct (hash_files V [input] c5) as [o8 c8] eqn:HF.
    destruct (hash_files_any _ _ _ _ _ HF) as (_ & _ & _ & _ & _ & _ & _ & CH).
    destruct (CH NF5) as [CA RES]. destruct (RES [i]) as [-> _]; [constructor; [exact ST5|constructor]|].
    exists c8. split; [reflexivity|exact CA]. }
  destruct HX as (c1 & HX & CA). exists c1, (h_ino ho). rewrite HX.
  assert (DC : disk c1 = fst a5) by (unfold disk; rewrite CA; reflexivity).
  split; [reflexivity|]. rewrite DC. split; [exact NF5|]. split; [lia|].
  split.
  { destruct TR5 as (TN & _). rewrite TN, N3, lookup_add, cpath_eqb_refl, HI by exact LQ2. reflexivity. }
  split; [exact D5|]. exact ST5.
Qed.

Lemma yields_printed : forall V n c k st l t, yields V c k st l t -> yields V (printed n c) k st l t.
Proof. intros V n c k st l t. apply yields_disk; [apply same_disk_refl|reflexivity|reflexivity]. Qed.

Lemma recovers_of : forall E raw ct hdr pt,
  (forall w, d_plan (w_in w) = [] -> d_plan (w_out w) = [] -> d_plan (w_hdr w) = [] ->
     d_pos (w_in w) = 0 -> d_log (w_in w) = [] -> d_data (w_in w) = ct ->
     (forall h, hdr = Some h -> d_pos (w_hdr w) = 0 /\ d_data (w_hdr w) = h) ->
     d_pos (w_out w) = 0 -> d_data (w_out w) = [] ->
     exists w', decrypt_execute E (is_some hdr) raw w = (Ok tt, w') /\ wrote (w_out w) (w_out w') pt) ->
  recovers E raw ct hdr pt.
Proof.
  intros E raw ct hdr pt DEC V g c input output i q k t HV DB GI GO NF IO ST DT HD RQ LQ KS Y.
  destruct (decrypt_cmd_run V g c _ _ GI GO) as [R1 _]. destruct (R1 DB) as (p & n & PO & R).
  assert (NE : input <> output).
  { intros ->. rewrite (free_absent _ _ _ RQ LQ) in ST. discriminate. }
  rewrite R, decrypt_stream_eq by exact NE.
  assert (K : cp_key p = k) by (eapply key_source_unique; [apply PO|exact KS]). subst k.
  assert (HP : exists hp, (is_some hp = is_some hdr /\ forall j, hp = Some j -> hdr = Some (s_data (disk c) j)) /\
      match cp_header p, hp with
      | None, None => True
      | Some x, Some j => stat (disk c) (os_path x) = Some (NFile j)
      | _, _ => False
      end).
  { rewrite (po_header _ _ _ _ PO). destruct hdr as [h|].
    - destruct HD as (x & j & [r G] & STX & DX). exists (Some j). rewrite G. cbn. split; [|exact STX].
      split; [reflexivity|]. intros j' J. injection J as <-. congruence.
    - exists None. unfold not_given in HD. rewrite HD. cbn. split; [|exact I]. split; [reflexivity|discriminate]. }
  destruct HP as (hp & [IS HH] & HP).
  destruct (decrypt_forward V input output p (printed n c) i q raw t hp pt) as
    (c1 & j & DM & NF1 & NJ & LJ & DJ & ST1); try assumption; try (apply yields_printed; exact Y).
  { intros w A1 A2 A3 A4 AL A5 A6 A7 A8. rewrite HV, IS. apply DEC; auto.
    - rewrite A5. exact DT.
    - intros h E1. rewrite E1 in IS. destruct hp as [jh|]; [|discriminate]. destruct (A6 jh eq_refl) as [B1 B2].
      split; [exact B1|]. rewrite B2. specialize (HH jh eq_refl). change (disk (printed n c)) with (disk c). congruence. }
  rewrite (bind_ok _ _ _ _ _ DM). unfold finish. rewrite (po_erase _ _ _ _ PO).
  destruct (secure_erase V input (passes_of (g "erase"%string)) (cp_force p) c1) as [o c'] eqn:SE.
  exists c', j. destruct (secure_erase_file _ _ _ _ _ _ _ _ SE ST1) as [(_ & _ & X)|(s1 & o1 & D & C & ER & ->)]; [contradiction|].
  rewrite (C NF1) in ER.
  destruct (erase_holds _ _ _ _ _ ER) as (_ & OKH & _ & CALM & _).
  assert (o1 = Ok tt) by (eapply CALM; eauto). subst o1.
  split; [reflexivity|].
  destruct (OKH eq_refl) as (i' & q' & STI & RQ' & _ & _ & SAME & _).
  assert (i' = i) by congruence. subst i'.
  assert (NI : i < s_next (disk c)).
  { unfold stat in ST. destruct (resolve true (disk c) (os_path input)); [|discriminate]. exact (IO _ _ ST). }
  rewrite printed_disk in NJ.
  rewrite SAME.
  - unfold at_place. rewrite LJ, DJ. reflexivity.
  - intros ->.
    assert (RT : resolve true (disk c1) (os_path input) = Some q').
    { eapply resolve_same; [exact RQ'|exact LJ|discriminate]. }
    unfold stat in ST1. rewrite RT, LJ in ST1. injection ST1 as ->. lia.
  - rewrite LJ. intros X. injection X as ->. lia.
Qed.

Lemma all_zero_repeat : forall l, all_zero l = true <-> l = repeat x00 (List.length l).
Proof.
  induction l as [|b r IH]; [split; reflexivity|]. cbn. unfold all_zero in *. cbn. rewrite Bool.andb_true_iff, IH.
  split.
  - intros [A B]. f_equal; [|exact B]. destruct b; try discriminate A; reflexivity.
  - intros H. injection H as -> H. split; [reflexivity|exact H].
Qed.

(** A successful run of encrypt: what the library did, and where it put it. *)
Record encrypt_made (V : cenv) (g : string -> list string) (output : string) (s s' : sys) (pt raw : bytes)
  (ha : hashing_algorithm) (w w' : world) : Prop := {
  em_run : encrypt_execute (ce_E V) (mkEncReq (negb (match g "header"%string with [] => true | _ => false end)) raw
             (mkHT V5 (algorithm_asked g) StreamMode) ha) w = (Ok tt, w');
  em_in : d_data (w_in w) = pt /\ d_plan (w_in w) = [];
  em_out : d_data (w_out w) = [] /\ d_plan (w_out w) = [];
  em_place : exists q i, resolve true s (os_path output) = Some q
    /\ at_place s' q = Some (SFile i (d_data (w_out w')));
  em_header : match g "header"%string with
    | [] => True
    | h :: _ => d_data (w_hdr w) = [] /\ d_plan (w_hdr w) = []
        /\ exists q j, resolve true s (os_path h) = Some q
             /\ at_place s' q = Some (SFile j (d_data (w_hdr w')))
    end
}.

Lemma encrypt_ran : forall V g c o c' input output i,
  env_ok (ce_E V) -> no_faults (disk c) -> inodes_ok (disk c) ->
  given g "input" input -> given g "output" output ->
  stat (disk c) (os_path input) = Some (NFile i) ->
  (forall t, In t (write_targets g output) -> stat (disk c) t <> Some (NFile i)) ->
  (forall h, given g "header" h -> different (disk c) (os_path output) (os_path h)) ->
  run_command V CmdEncrypt g c = (o, c') ->
  (o <> Ok tt -> stat (disk c') (os_path input) = Some (NFile i)
                 /\ s_data (disk c') i = s_data (disk c) i)
  /\ (o = Ok tt -> stat (disk c') (os_path input) = None
       /\ exists raw p w w', params_of V CmdEncrypt g p /\ key_taken V CmdEncrypt g Validate c output raw
            /\ encrypt_made V g output (disk c) (disk c') (s_data (disk c) i) raw (cp_hashing p) w w').
Proof.
  intros V g c o c' input output i HE NF IO GI GO ST SEP DIF H.
  assert (NI : i < s_next (disk c)).
  { unfold stat in ST. destruct (resolve true (disk c) (os_path input)); [|discriminate]. exact (IO _ _ ST). }
  assert (NE : input <> output).
  { intros ->. eapply SEP; [left; reflexivity|exact ST]. }
  destruct (encrypt_run _ _ _ _ _ _ _ GI GO NE H) as (p & n & o1 & c1 & PO & EM & RES).
  destruct (encrypt_main_any _ _ _ _ _ _ _ _ EM) as (W & _ & OK).
  rewrite (header_targets_of _ _ _ _ _ PO), printed_disk in W.
  pose proof (ow_stat_kept _ _ _ _ _ W ST) as ST1.
  pose proof (ow_untouched _ _ _ _ W NI SEP) as [DI _].
  destruct RES as [(NO & -> & ->)|(-> & SE)].
  { split; [auto|contradiction]. }
  destruct (OK eq_refl) as (i' & raw & hi & ho & hh & a1 & a2 & EN). clear OK.
  assert (i' = i).
  { pose proof (en_input _ _ _ _ _ _ _ _ _ _ _ _ _ _ EN) as X. rewrite printed_disk, ST in X. congruence. }
  subst i'.
  destruct (en_calm _ _ _ _ _ _ _ _ _ _ _ _ _ _ EN NF) as (NF1 & PI & PO' & PH).
  destruct (secure_erase_file _ _ _ _ _ _ _ _ SE ST1) as [(_ & _ & X)|(s1 & oe & D & C & ER & ->)]; [contradiction|].
  rewrite (C NF1) in ER. clear s1 D C.
  destruct (erase_holds _ _ _ _ _ ER) as (_ & OKH & _ & CALM & _).
  assert (oe = Ok tt) by (eapply CALM; eauto). subst oe. cbn [omap]. split; [congruence|]. intros _.
  destruct (OKH eq_refl) as (i' & q' & STI & RQ' & SN & _ & SAME & _).
  assert (i' = i) by congruence. subst i'. split; [exact SN|].
  (* places other than the input's are kept *)
  assert (KEPT : forall t, In t (write_targets g output) -> forall j, stat (disk c1) t = Some (NFile j) ->
     exists q, resolve true (disk c) t = Some q /\ at_place (disk c') q = Some (SFile j (s_data (disk c1) j))).
  { intros t IT j STJ.
    assert (JI : j <> i).
    { intros ->. destruct (ow_stat_new _ _ _ _ _ W STJ) as [X|(_ & j & X & L)]; [exact (SEP t IT X)|].
      injection X as <-. lia. }
    unfold stat in STJ. destruct (resolve true (disk c1) t) as [q|] eqn:RT; [|discriminate].
    exists q. rewrite <- (ow_resolve true _ _ _ t W). split; [exact RT|].
    rewrite SAME; [unfold at_place; rewrite STJ; reflexivity| |congruence].
    intros ->. apply JI.
    assert (RT' : resolve true (disk c1) (os_path input) = Some q').
    { eapply resolve_same; [exact RQ'|exact STJ|discriminate]. }
    unfold stat in STI. rewrite RT', STJ in STI. congruence. }
  destruct (en_ho _ _ _ _ _ _ _ _ _ _ _ _ _ _ EN) as [STO POO].
  destruct (en_hi _ _ _ _ _ _ _ _ _ _ _ _ _ _ EN) as [HII PII].
  assert (OI : h_ino ho <> i).
  { intros X. rewrite X in STO. destruct (ow_stat_new _ _ _ _ _ W STO) as [Y|(_ & j & Y & L)].
    - apply (SEP (os_path output)); [left; reflexivity|exact Y].
    - injection Y as <-. lia. }
  assert (HP : forall hp, cp_header p = Some hp -> given g "header" hp).
  { intros hp E. rewrite (po_header _ _ _ _ PO) in E. destruct (g "header"%string) as [|x r] eqn:G; [discriminate|].
    injection E as ->. exists r. exact G. }
  assert (HI : forall h, hh = Some h -> h_ino h <> i /\ h_ino ho <> h_ino h).
  { intros h E. pose proof (en_hh _ _ _ _ _ _ _ _ _ _ _ _ _ _ EN) as EH.
    destruct (cp_header p) as [hp|] eqn:CH; [|congruence]. destruct EH as (h' & E' & STH & _).
    assert (h' = h) by congruence. subst h'. split.
    - intros X. rewrite X in STH. destruct (ow_stat_new _ _ _ _ _ W STH) as [Y|(_ & j & Y & L)].
      + apply (SEP (os_path hp)); [|exact Y]. right. destruct (HP hp eq_refl) as [r G]. rewrite G. left. reflexivity.
      + injection Y as <-. lia.
    - eapply (en_apart _ _ _ _ _ _ _ _ _ _ _ _ _ _ EN); eauto. }
  (* the library's run *)
  pose proof (en_run _ _ _ _ _ _ _ _ _ _ _ _ _ _ EN) as ER'. unfold encrypt_files in ER'.
  assert (AL : (same_file ho hi || same_opt ho hh || same_opt hi hh)%bool = false).
  { unfold same_file, same_opt. rewrite HII. apply Nat.eqb_neq in OI. rewrite OI. cbn [orb].
    destruct hh as [h|]; [|reflexivity]. destruct (HI h eq_refl) as [A B].
    unfold same_file. rewrite HII. apply Nat.eqb_neq in B. rewrite B. cbn [orb]. apply Nat.eqb_neq. auto. }
  rewrite AL in ER'. clear AL. unfold map_err, run_world in ER'.
  set (req := mkEncReq (is_some hh) raw (mkHT V5 (algorithm_asked g) StreamMode) (cp_hashing p)) in *.
  set (w0 := mkWorld (handle_dev (fst a1) hi) (handle_dev (fst a1) ho) (opt_dev (fst a1) hh) (s_rng (fst a1)) (snd a1)) in *.
  destruct (encrypt_execute (ce_E V) req w0) as [ox w1] eqn:EX.
  destruct ox as [[]|x| |]; try discriminate ER'. injection ER' as <-.
  pose proof (en_empty _ _ _ _ _ _ _ _ _ _ _ _ _ _ EN) as EE.
  pose proof (en_before _ _ _ _ _ _ _ _ _ _ _ _ _ _ EN) as WB.
  rewrite (header_targets_of _ _ _ _ _ PO), printed_disk in WB.
  pose proof (ow_untouched _ _ _ _ WB NI SEP) as [DIB _].
  destruct (en_after _ _ _ _ _ _ _ _ _ _ _ _ _ _ EN) as (_ & DA & _). cbn [fst] in DA.
  exists raw, p, w0, w1. split; [exact PO|]. split.
  { destruct (en_key _ _ _ _ _ _ _ _ _ _ _ _ _ _ EN) as (c0 & t & CA & CT & CS & Y).
    exists (cp_key p), c0, t. split; [apply PO|]. split; [exact CA|]. split; [exact CT|]. split; [auto|exact Y]. }
  destruct (KEPT (os_path output) (or_introl eq_refl) _ STO) as (qo & RO & PLO).
  assert (WIN : d_data (w_in w0) = s_data (disk c) i).
  { cbn [w0 w_in handle_dev d_data]. rewrite HII. exact DIB. }
  pose proof (en_hh _ _ _ _ _ _ _ _ _ _ _ _ _ _ EN) as EH.
  rewrite (po_header _ _ _ _ PO) in EH.
  constructor.
  - destruct (g "header"%string) as [|hp r] eqn:GH; cbn [hd_error] in EH.
    + subst hh. exact EX.
    + destruct EH as (h & -> & _). exact EX.
  - split; [exact WIN|exact PI].
  - split; [exact EE|exact PO'].
  - exists qo, (h_ino ho). split; [exact RO|]. rewrite PLO. do 2 f_equal. rewrite DA. cbn [with_rng s_data].
    destruct hh as [h|]; cbn [put_opt].
    + destruct (HI h eq_refl) as [HI1 HI2]. unfold put_handle at 1. cbn [with_data s_data].
      rewrite set_data_neq by exact HI2. unfold put_handle at 1. cbn [with_data s_data].
      unfold set_data. rewrite Nat.eqb_refl. reflexivity.
    + unfold put_handle at 1. cbn [with_data s_data]. unfold set_data. rewrite Nat.eqb_refl. reflexivity.
  - destruct (g "header"%string) as [|hp r] eqn:GH; cbn [hd_error] in EH; [exact I|].
    destruct EH as (h & -> & STH & PHH & EHH).
    assert (IT : In (os_path hp) (write_targets g output)).
    { right. rewrite GH. left. reflexivity. }
    destruct (KEPT _ IT _ STH) as (qh & RH & PLH).
    split; [exact EHH|]. split; [apply PH; reflexivity|].
    exists qh, (h_ino h). split; [exact RH|]. rewrite PLH. do 2 f_equal.
    rewrite DA. cbn [with_rng s_data put_opt]. unfold put_handle at 1. cbn [with_data s_data].
    unfold set_data. rewrite Nat.eqb_refl. reflexivity.
Qed.

Lemma encrypt_keeps : forall V g c o c' input output i,
  env_ok (ce_E V) -> no_faults (disk c) -> inodes_ok (disk c) ->
  given g "input" input -> given g "output" output ->
  stat (disk c) (os_path input) = Some (NFile i) ->
  (forall t, In t (write_targets g output) -> stat (disk c) t <> Some (NFile i)) ->
  (forall h, given g "header" h -> different (disk c) (os_path output) (os_path h)) ->
  run_command V CmdEncrypt g c = (o, c') ->
  (o <> Ok tt -> stat (disk c') (os_path input) = Some (NFile i)
                 /\ s_data (disk c') i = s_data (disk c) i)
  /\ (o = Ok tt -> stat (disk c') (os_path input) = None
       /\ exists raw, key_taken V CmdEncrypt g Validate c output raw
            /\ kept_encrypted V g output (disk c) (disk c') raw (s_data (disk c) i)).
Proof.
  intros V g c o c' input output i HE NF IO GI GO ST SEP DIF H.
  destruct (encrypt_ran _ _ _ _ _ _ _ _ HE NF IO GI GO ST SEP DIF H) as [A B]. split; [exact A|].
  intros OK. destruct (B OK) as (SN & raw & p & w0 & w1 & PO & KT & [EX (WIN & PI) (EE & PO') (qo & io & RO & PLO) EH]).
  split; [exact SN|]. exists raw. split; [exact KT|].
  exists qo, io, (d_data (w_out w1)). split; [exact RO|]. split; [exact PLO|].
  destruct (g "header"%string) as [|hp r] eqn:GH; cbn [negb] in EX.
  - apply recovers_of. intros w A1 A2 A3 A4 _ A5 A6 A7 A8.
    destruct (encrypted_back (ce_E V) BLOCK_SIZE (mkEncReq false raw (mkHT V5 (algorithm_asked g) StreamMode) (cp_hashing p)) w0 w1 HE)
      with (v := w) as (w' & X1 & X2); auto.
    + apply Nat.ltb_lt. reflexivity.
    + unfold rest. rewrite A4, A5. reflexivity.
    + exists w'. split; [exact X1|]. rewrite WIN in X2. exact X2.
  - destruct EH as (EHH & PH & qh & j & RH & PLH).
    exists qh, j, (d_data (w_hdr w1)). split; [exact RH|]. split; [exact PLH|].
    intros AZ. apply recovers_of. intros w A1 A2 A3 A4 _ A5 A6 A7 A8.
    destruct (A6 _ eq_refl) as [P6 D6].
    destruct (encrypted_back_detached (ce_E V) BLOCK_SIZE (mkEncReq true raw (mkHT V5 (algorithm_asked g) StreamMode) (cp_hashing p)) w0 w1 HE)
      with (v := w) as (w' & X1 & X2); auto.
    + apply Nat.ltb_lt. reflexivity.
    + destruct (all_zero (firstn 416 (d_data (w_out w1)))) eqn:Z; [|reflexivity].
      apply all_zero_repeat in Z. contradiction.
    + exists w'. split; [exact X1|]. rewrite WIN in X2. exact X2.
Qed.
