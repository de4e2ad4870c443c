(** Erase and pack succeed because nothing is in the way. *)
From Coq Require Import List Arith NArith ZArith Ascii String Bool Lia.
From Verif Require Import Bytes Outcome IO Primitives Crypto Header Stream KeyModel EncDec Overwrite Hash FS Erase Archive.
From Verif Require Import HeaderFacts BytesFacts IOSpec IOFacts FileSpec FileFacts FileProofs ToolProofs FSSpec FSFacts EraseProofs EraseDirProofs EraseSched.
From Verif Require Import ArchiveSpec ArchiveWalk ArchiveProofs WorldFrames UnpackProofs PackProofs RestoreSpec RestoreManySpec RestoreNames RestoreDirs RestoreFiles RestorePack RestoreProofs EraseMany.
From Verif Require Import Cli CliSpec CliKeys CliRuns CliCommands CliProofs CliPack CliTools CliToolsRuns ChoiceSpec ChoiceProofs NoPanic.
From Verif Require Import DecryptSpec DecryptProofs WorksSpec WorksProofs PackPathSpec PackPath WorksMoreSpec.
Import ListNotations.
Local Open Scope nat_scope.
Local Open Scope list_scope.
Strategy 1000 [walk MAX_LINKS resolve].

(** ** Packing *)

Lemma pack_execute_works : forall E Z pick req s tr T zs,
  env_ok E -> no_faults s -> resolve false s (temp_path pick s) = Some T -> lookup (s_nodes s) T = None ->
  h_ino (pr_out req) < s_next s -> h_plan (pr_out req) = [] ->
  (forall x, pr_hdr req = Some x -> h_ino x < s_next s /\ h_plan x = []) ->
  (forall h, In (EFile h) (pr_files req) -> h_ino h < s_next s) ->
  fst (pack_add BLOCK_SIZE (pr_files req) [] s) = (Ok tt, zs) ->
  ht_version (pr_header_type req) = V5 -> ht_mode (pr_header_type req) = StreamMode ->
  encryptable E (z_encode Z (pr_compression req) zs) ->
  (forall salt, exists key, hash E (pr_hashing_algorithm req) (pr_raw_key req) salt = Ok key) ->
  exists a', pack_execute E Z pick req (s, tr) = (Ok tt, a').
Proof.
  intros E Z pick req s tr T zs EO NF RT LT HO PO HH FO PA V5' SM SIZE KDF.
  assert (BS : 0 < BLOCK_SIZE) by (apply Nat.ltb_lt; vm_compute; reflexivity).
  destruct (pack_execute E Z pick req (s, tr)) as [r a'] eqn:RUN. exists a'.
  unfold pack_execute in RUN.
  apply pack_stages in RUN; [|exact BS|exact HO|intros x X; apply HH, X].
  destruct RUN as [? X CT|T' zs' oz RT' LT' ? ? CO OZ|T' s1 RT' LT' MD SL X (w & oe & w' & EX & OE)
    |T' zs' h1 aa h hx a2 cap oe o6 RT' LT' MD ZD CO TR RNG HI HP RW N1 N2 SL HI2 HP2 HPL2 CAP WT X].
  - destruct (create_temp_calm pick s T NF RT LT) as (s1 & C & _). congruence.
  - exfalso. specialize (CO FO). apply (OZ NF). congruence.
  - exfalso. apply encrypt_no_panic in EX; [destruct EX, OE; congruence|exact EO|exact BS|].
    unfold encreq. cbn [er_header_type]. congruence.
  - specialize (ZD NF). specialize (CO FO). specialize (HP NF). specialize (HPL2 NF).
    assert (zs' = zs) by congruence. subst zs'. assert (T' = T) by congruence. subst T'.
    pose proof SL as [ST _ _].
    assert (NF2 : no_faults (fst a2)).
    { destruct ST as (_ & _ & _ & _ & A & B). eapply no_faults_rest; [exact (tm_calm _ _ _ _ MD NF)| |]; assumption. }
    assert (W : o6 = Ok tt).
    { destruct ST as (SN & SC & _).
      assert (G : grown (s_nodes s) (s_nodes (fst a2))).
      { rewrite SN, (tm_nodes _ _ _ _ MD). apply grown_add. exact LT. }
      destruct (wipe_calm h cap 2%Z (fst a2) T (s_next s) NF2 HPL2) as (s' & cs & W & _).
      - rewrite HP2. eapply resolve_grown; [exact G| |exact RT|discriminate].
        rewrite SC. apply (tm_cwd _ _ _ _ MD).
      - rewrite SN, (tm_nodes _ _ _ _ MD), lookup_add, cpath_eqb_refl by exact LT. reflexivity.
      - congruence. }
    subst o6. unfold run_world in RW.
    set (w0 := mkWorld (handle_dev (fst aa) h1) (handle_dev (fst aa) (pr_out req))
               (opt_dev (fst aa) (pr_hdr req)) (s_rng (fst aa)) (snd aa)) in RW.
    destruct (KDF (draw (w_rng w0) 0 16)) as (key & HK).
    assert (IN : d_data (w_in w0) = z_encode Z (pr_compression req) zs).
    { unfold w0. cbn [w_in handle_dev d_data]. rewrite HI. exact ZD. }
    assert (EX : exists w', encrypt_execute E (encreq req) w0 = (Ok tt, w')).
    { destruct (pr_hdr req) as [x|] eqn:PH.
      - destruct (file_round_trip_detached_v5 E (encreq req) w0 key EO) as (w' & _ & _ & X' & _); auto.
        + unfold encreq. cbn. rewrite PH. reflexivity.
        + apply (HH x eq_refl).
        + rewrite IN. exact SIZE.
        + eauto.
      - destruct (file_round_trip_v5 E (encreq req) w0 key EO) as (w' & _ & X' & _); auto.
        + unfold encreq. cbn. rewrite PH. reflexivity.
        + rewrite IN. exact SIZE.
        + eauto. }
    destruct EX as (w' & EX). unfold encrypt_execute in EX. rewrite EX in RW.
    injection RW as <- _ _ _. rewrite X. reflexivity.
Qed.

(** Files are made elsewhere than at the temporary file's place. *)
Lemma free_after : forall s p h s' T, no_faults s -> create_or_write p s = (Ok (EFile h), s') ->
  lookup (s_nodes s) T = None -> resolve true s p <> Some T -> lookup (s_nodes s') T = None.
Proof.
  intros s p h s' T NF C LT N.
  destruct (create_or_write_any _ _ _ _ C) as [(e & X & _)|(h' & X & _ & _ & _ & _ & _ & _ & _ & _ & NEW)]; [discriminate|].
  injection X as <-. destruct NEW as [(q & R & L & _ & _ & NO & _)|(_ & _ & NO & _)]; [|rewrite NO; exact LT].
  rewrite NO, lookup_add by exact L.
  destruct (cpath_eqb T q) eqn:Q; [|exact LT].
  exfalso. apply cpath_eqb_eq in Q. subst q. apply N. eapply free_followed; eauto.
Qed.

(** The two files can be made, and the temporary file then. *)
Lemma files_works : forall V cmd g p output c T,
  params_of V cmd g p -> no_faults (disk c) -> inodes_ok (disk c) ->
  can_write g (disk c) (os_path output) ->
  (forall h, given g "header" h -> can_write g (disk c) (os_path h) /\ different (disk c) (os_path output) (os_path h)) ->
  lookup (s_nodes (disk c)) T = None ->
  (forall x, In x (write_targets g output) -> resolve true (disk c) x <> Some T) ->
  exists ho fh s5 c7,
    create_or_write (os_path output) (disk c) = (Ok (EFile ho), s5)
    /\ open_header p (set_disk s5 c) = (Ok (option_map EFile fh), c7)
    /\ match cp_header p with
       | None => fh = None /\ disk c7 = s5
       | Some h => exists hh, fh = Some hh /\ create_or_write (os_path h) s5 = (Ok (EFile hh), disk c7)
       end
    /\ s_tmp (disk c7) = s_tmp (disk c) /\ s_rng (disk c7) = s_rng (disk c)
    /\ lookup (s_nodes (disk c7)) T = None
    /\ stat (disk c7) (os_path output) = Some (NFile (h_ino ho)).
Proof.
  intros V cmd g p output c T PO NF IO CO CH LT NT.
  destruct (create_works (disk c) (os_path output) NF (can_create _ _ _ CO)) as (ho & s5 & C5).
  assert (NT5 : lookup (s_nodes s5) T = None).
  { eapply free_after; eauto. apply NT. left. reflexivity. }
  destruct (ow_create_or_write (disk c) [os_path output] _ _ _ _ (ow_refl _ _) (or_introl eq_refl) C5) as [W5 _].
  pose proof (cow_stat _ _ _ _ C5) as S5.
  destruct (create_or_write_any _ _ _ _ C5)
    as [(e & X & _)|(h' & X & _ & _ & _ & CW5 & TM5 & RG5 & _ & CF & _)]; [discriminate|]. injection X as <-.
  destruct (CF NF) as [NF5 _].
  unfold open_header. rewrite (po_header _ _ _ _ PO). destruct (g "header"%string) as [|hn r] eqn:GH; cbn [hd_error].
  - exists ho, None, s5, (set_disk s5 c). rewrite set_disk_disk. do 3 (split; [auto|]). auto.
  - destruct (CH hn) as [CWH DIF]; [exists r; exact GH|].
    destruct (can_write_after g (disk c) (os_path output) (os_path hn) ho s5 NF IO CWH DIF C5) as [CW3 _].
    destruct (create_works s5 (os_path hn) NF5 (can_create _ _ _ CW3)) as (hh & s7 & C7).
    exists ho, (Some hh), s5, (set_disk s7 (set_disk s5 c)). split; [exact C5|].
    rewrite <- (set_disk_disk s5 c) in CW3. split.
    { rewrite (bind_ok _ _ _ _ _ (check_works _ _ _ _ _ _ PO CW3)).
      erewrite bind_ok by (rewrite storage_run, set_disk_disk, C7; reflexivity). reflexivity. }
    rewrite set_disk_disk. split; [eauto|].
    destruct (ow_create_or_write s5 [os_path hn] _ _ _ _ (ow_refl _ _) (or_introl eq_refl) C7) as [W7 _].
    assert (NT7 : lookup (s_nodes s7) T = None).
    { eapply free_after; [exact NF5|exact C7|exact NT5|].
      rewrite (ow_resolve true _ _ _ _ W5). apply NT. unfold write_targets. rewrite GH. right. left. reflexivity. }
    destruct (create_or_write_any _ _ _ _ C7)
      as [(e & X & _)|(h' & X & _ & _ & _ & _ & TM7 & RG7 & _)]; [discriminate|].
    split; [congruence|]. split; [congruence|]. split; [exact NT7|].
    eapply ow_stat_kept; [exact W7|exact S5].
Qed.

(** The directories after the two files were made. *)
Lemma dirs_made : forall P s output header s7 ho fh qo dirs,
  made P s output header s7 ho fh qo ->
  Forall (fun d => elsewhere s (snd d) output) dirs ->
  (forall h, header = Some h -> Forall (fun d => elsewhere s (snd d) h) dirs) ->
  Forall (packable_dir s) dirs ->
  Forall (packable_dir s7) dirs
  /\ forall d r, In d dirs -> inside (snd d) r -> at_place s7 r = at_place s r /\ lookup (s_nodes s7) r = lookup (s_nodes s) r.
Proof.
  intros P s output header s7 ho fh qo dirs MD EL ELH PD. rewrite Forall_forall in EL.
  pose proof MD as [TO7 NF7 W7 HI HP HD [RQ LQ] MH MI].
  assert (INS : forall d r, In d dirs -> inside (snd d) r ->
     at_place s7 r = at_place s r /\ lookup (s_nodes s7) r = lookup (s_nodes s) r).
  { intros d r ID IR. destruct (MI (snd d) (EL d ID)) as (_ & _ & IN).
    - intros h X. specialize (ELH h X). rewrite Forall_forall in ELH. exact (ELH d ID).
    - destruct (IN r IR) as (A & B & _). auto. }
  split; [|exact INS].
  apply Forall_forall. intros d ID. rewrite Forall_forall in PD. destruct (PD d ID) as [PK R L NL GN].
  assert (IQ : inside (snd d) (snd d)) by (exists []; symmetry; apply app_nil_r).
  constructor.
  - exact PK.
  - rewrite (ow_resolve true _ _ _ _ W7). exact R.
  - rewrite (proj2 (INS d _ ID IQ)). exact L.
  - intros r t IR. rewrite (proj2 (INS d r ID IR)). apply NL, IR.
  - intros rel AT. rewrite (proj1 (INS d _ ID (ex_intro _ rel eq_refl))) in AT. exact (GN rel AT).
Qed.

(** The archive made of the directories. *)
Lemma items_archive : forall s0 s dirs, tree_ok s -> Forall (packable_dir s) dirs -> apart (map given_names dirs) ->
  (forall d r, In d dirs -> inside (snd d) r -> at_place s r = at_place s0 r) ->
  archive_of s0 dirs (map (zent_it s) (items s dirs)).
Proof.
  intros s0 s dirs T PD AP SAME. split; [apply names_it_nodup; assumption|].
  apply Forall_forall. intros e I. apply in_map_iff in I. destruct I as (t & <- & I).
  pose proof (item_packable s dirs T PD t I) as PK.
  pose proof (item_kind s dirs T PD t I) as K.
  pose proof (proj1 (in_items s dirs t) I) as [ID IR].
  exists (fst t), (ir t). split; [exact ID|].
  rewrite <- (SAME (fst t)) by (exact ID || (exists (ir t); reflexivity)).
  change (snd (fst t)) with (iq t). change (fst (fst t)) with (ip t).
  unfold zent_it, zent_of, stored_data, at_place.
  change (mkPath (p_abs (ip t)) (p_comps (ip t) ++ map Nm (ir t))) with (sub (ip t) (ir t)).
  destruct K as [K|(i & K)]; rewrite K; cbn [ze_name ze_data stored_name]; [|auto].
  split; [|reflexivity]. apply dir_name_slash. exact PK.
Qed.

Lemma packing_hashing : forall V g p, params_of V CmdPack g p ->
  forall raw, hashes (ce_E V) (kdf_asked g) raw -> forall salt, exists key, hash (ce_E V) (cp_hashing p) raw salt = Ok key.
Proof.
  intros V g p PO raw H salt. specialize (H salt).
  rewrite (po_hashing _ _ _ _ PO). unfold kdf_asked in H.
  assert (X : exists k, In (match g "argon"%string with [] => Blake3Balloon 5 | _ => Argon2id 3 end, k) kdf_table
      /\ kdf_run (ce_E V) k raw salt <> None).
  { destruct (g "argon"%string); eexists; (split; [|exact H]); cbn; auto 9. }
  destruct X as (k & IN & RUN).
  destruct (g "argon"%string) eqn:G; rewrite (proj1 (hash_table (ce_E V) _ raw salt) k IN);
    destruct (kdf_run (ce_E V) k raw salt); try contradiction; eauto.
Qed.

Section Packing.

Variables (V : cenv) (g : string -> list string) (p : crypto_params) (pp : pack_params) (inputs : list string)
  (output : string) (a : algorithm) (c : cli) (dirs : list (path * cpath)) (raw : bytes) (t : list (option bytes)) (T : cpath).
Hypothesis EO : env_ok (ce_E V).
Hypothesis TO : tree_ok (disk c).
Hypothesis NF : no_faults (disk c).
Hypothesis IO : inodes_ok (disk c).
Hypothesis PO : params_of V CmdPack g p.
Hypothesis GI : g "input"%string = inputs.
Hypothesis TP : to_pack g (disk c) output dirs.
Hypothesis CO : can_write g (disk c) (os_path output).
Hypothesis CH : forall h, given g "header" h -> can_write g (disk c) (os_path h).
Hypothesis RT : resolve false (disk c) (temp_path (ce_pick V) (disk c)) = Some T.
Hypothesis LT : lookup (s_nodes (disk c)) T = None.
Hypothesis NT : forall x, In x (write_targets g output) -> resolve true (disk c) x <> Some T.
Hypothesis Y : yields V c (cp_key p) Validate raw t.
Hypothesis KDF : forall salt, exists key, hash (ce_E V) (cp_hashing p) raw salt = Ok key.
Hypothesis SIZE : forall zs, archive_of (disk c) dirs zs -> encryptable (ce_E V) (z_encode (ce_Z V) (pp_compression pp) zs).

Lemma pack_main_works : exists c1 s7 ho fh qo, pack_main V inputs output p pp a c = (Ok tt, c1)
  /\ made True (disk c) (os_path output) (option_map os_path (cp_header p)) s7 ho fh qo
  /\ s_nodes (disk c1) = s_nodes s7 /\ s_cwd (disk c1) = s_cwd s7 /\ no_faults (disk c1).
Proof.
  pose proof (to_pack_stat _ _ _ _ TP) as ST. rewrite GI in ST. destruct TP as [EI NED PD AP EL ELH]. rewrite GI in EI.
  assert (HG : forall h, cp_header p = Some h -> given g "header" h).
  { intros h X. rewrite (po_header _ _ _ _ PO) in X. unfold given. destruct (g "header"%string) as [|y l]; [discriminate|].
    injection X as ->. eauto. }
  unfold pack_main.
  rewrite (bind_ok _ _ _ _ _ (check_works _ _ _ _ _ _ PO CO)).
  assert (SD : set_disk (disk c) c = c).
  { unfold set_disk, disk. rewrite <- surjective_pairing. symmetry. apply cli_eta. }
  erewrite bind_ok.
  2:{ apply (each_calm _ (fun f => EDir (os_path f)) inputs c). intros f I. rewrite storage_run.
      assert (RF : read_file (os_path f) (disk c) = (Ok (EDir (os_path f)), disk c)).
      { unfold read_file, is_dir. rewrite (ST f I). reflexivity. }
      rewrite RF. cbn [fst snd omap]. rewrite SD. reflexivity. }
  destruct (get_secret_ok _ _ _ _ _ _ NF Y) as (c2 & GS & _).
  destruct (get_secret_any _ _ _ _ _ _ GS) as (D2 & T2 & NF2 & _). specialize (NF2 NF).
  destruct (get_secret_rest _ _ _ _ _ _ GS) as [RG2 _].
  rewrite (bind_ok _ _ _ _ _ GS).
  pose proof D2 as (DN & DD & DX & DC & DT & _).
  assert (IO2 : inodes_ok (disk c2)) by (unfold inodes_ok; rewrite DN, DX; exact IO).
  assert (CWD : forall x, can_write g (disk c) x -> can_write g (disk c2) x).
  { intros x [(q & R & L)|(F & j & STJ)]; [left; exists q|right; split; [exact F|exists j]].
    - rewrite (FSFacts.resolve_disk false _ _ _ D2), DN. auto.
    - rewrite (stat_disk _ _ _ D2). exact STJ. }
  destruct (files_works V CmdPack g p output c2 T PO NF2 IO2 (CWD _ CO)) as (ho & fh & s5 & c7 & C5 & OH & HX & TM7 & RG7 & LT7 & ST7).
  { intros h G. split; [apply CWD, CH, G|]. destruct (ELH h G) as [[A B] _].
    split; [rewrite !(FSFacts.resolve_disk true _ _ _ D2); exact A|]. intros j. rewrite !(stat_disk _ _ _ D2). apply B. }
  { rewrite DN. exact LT. }
  { intros x I. rewrite (FSFacts.resolve_disk true _ _ _ D2). apply NT, I. }
  erewrite bind_ok by (rewrite storage_run, C5; reflexivity).
  rewrite (bind_ok _ _ _ _ _ OH).
  assert (CWDD : lookup (s_nodes (disk c)) (s_cwd (disk c)) = Some NDir).
  { clear - TO PD NED. destruct dirs as [|d l]; [congruence|]. apply Forall_inv in PD.
    destruct PD as [(AB & GC & x1 & x & PC) R L _ _]. rewrite resolve_eq in R.
    replace (start (disk c) (fst d)) with (s_cwd (disk c)) in R by (unfold start; rewrite AB; reflexivity).
    eapply walk_first; [exact TO|exact GC| |exact R|exact L].
    rewrite PC, nm_app. cbn. destruct (names_of x1); discriminate. }
  destruct (files_made True (disk c) (disk c2) (os_path output) (option_map os_path (cp_header p)) ho fh s5 (disk c7)
    TO CWDD IO D2 (fun _ => NF2) C5) as (qo & MD).
  { destruct (cp_header p) as [h|]; exact HX. }
  { intros h X. destruct (cp_header p) as [h'|] eqn:CP; [|discriminate]. injection X as <-. apply (ELH h' (HG h' eq_refl)). }
  set (s7 := disk c7) in *.
  pose proof MD as [TO7 NF7 W7 HI HP HD [RQ LQ] MH MI]. specialize (NF7 I). specialize (HP I).
  destruct (dirs_made _ _ _ _ _ _ _ _ dirs MD EL) as [PD7 INS]; [|exact PD|].
  { intros h X. destruct (cp_header p) as [h'|] eqn:CP; [|discriminate]. injection X as <-. apply (ELH h' (HG h' eq_refl)). }
  assert (IO7 : inodes_ok s7) by (eapply ow_inodes; [exact IO|exact W7]).
  set (lst := fun f => match fst (read_dir (EDir (os_path f)) s7) with Ok l => l | _ => [] end).
  assert (RDS : forall d, In d dirs -> exists l, read_dir (EDir (fst d)) s7 = (Ok l, s7)).
  { intros d ID. rewrite Forall_forall in PD7. destruct (PD7 d ID) as [_ K2 K3 K4 _]. eexists.
    apply (tree_entries s7 (fst d) (snd d) TO7 NF7 K2 K3 K4). }
  assert (RDL : forall f, In f inputs -> read_dir (EDir (os_path f)) s7 = (Ok (lst f), s7)).
  { intros f I. apply (in_map os_path) in I. rewrite EI in I. apply in_map_iff in I. destruct I as (d & E & ID).
    destruct (RDS d ID) as (l & RL). unfold lst. rewrite <- E, RL. reflexivity. }
  assert (NHO : forall hh, fh = Some hh -> h_ino hh < s_next s7 /\ h_ino hh <> h_ino ho /\ h_plan hh = [] /\ s_data s7 (h_ino hh) = []).
  { intros hh ->. destruct (option_map os_path (cp_header p)); [|contradiction]. tauto. }
  assert (EA : each (fun f => if entry_is_dir f then storage (read_dir f) else ret [f]) (map (fun f => EDir (os_path f)) inputs) c7
    = (Ok (map lst inputs), c7)).
  { clear - RDL. clearbody lst. induction inputs as [|x r IH]; [reflexivity|]. cbn [map each entry_is_dir].
    unfold bind at 1. rewrite storage_run. fold s7. rewrite (RDL x (or_introl eq_refl)). cbn [fst snd omap].
    replace (set_disk s7 c7) with c7 by (unfold s7; destruct c7 as [[? ?] ? ? ?]; reflexivity).
    unfold bind at 1. rewrite IH; [reflexivity|]. intros f I. apply RDL. right. exact I. }
  rewrite (bind_ok _ _ _ _ _ EA).
  erewrite bind_ok by reflexivity.
  replace (ok_handle (option_map EFile fh)) with fh by (destruct fh; reflexivity).
  assert (SO : same_opt ho fh = false).
  { destruct fh as [hh|]; [|reflexivity]. cbn. unfold same_file. apply Nat.eqb_neq.
    destruct (NHO hh eq_refl) as (_ & N & _). congruence. }
  rewrite SO.
  set (preq := mkPackReq ho fh (List.concat (map lst inputs)) (pp_compression pp) raw
      (mkHT V5 a StreamMode) (cp_hashing p)).
  assert (LI : listed s7 dirs (pr_files preq)).
  { exists (map lst inputs). split; [|reflexivity]. clearbody lst. clear - EI RDL. revert inputs EI RDL.
    induction dirs as [|d l IH]; intros [|f is] E R; try discriminate; cbn [map] in *; [constructor|].
    injection E as E1 E2. constructor; [rewrite <- E1; apply R; left; reflexivity|]. apply IH; [exact E2|].
    intros x I. apply R. right. exact I. }
  pose proof (listed_items s7 dirs TO7 PD7 NF7 _ LI) as FI.
  assert (BS : 0 < BLOCK_SIZE) by (apply Nat.ltb_lt; vm_compute; reflexivity).
  assert (TPE : temp_path (ce_pick V) s7 = temp_path (ce_pick V) (disk c)).
  { unfold temp_path. rewrite TM7, RG7, RG2, DT. reflexivity. }
  destruct (pack_execute_works (ce_E V) (ce_Z V) (ce_pick V) preq s7 (snd (c_a c7)) T (map (zent_it s7) (items s7 dirs)))
    as (a6 & PE); try assumption; try reflexivity.
  { rewrite TPE, (ow_resolve false _ _ _ _ W7). exact RT. }
  { intros x X. destruct (NHO x X) as (A & _ & B & _). auto. }
  { intros h I. rewrite FI in I. eapply items_inodes; eauto. }
  { rewrite FI. apply items_packed; assumption. }
  { apply SIZE. apply items_archive; auto. intros d r ID IR. apply (INS d r ID IR). }
  destruct (pack_after _ _ _ _ preq _ _ _ BS HI (fun hh X => proj1 (NHO hh X)) NF7 PE) as (N6 & C6 & NF6).
  assert (CA7 : c_a c7 = (s7, snd (c_a c7))) by apply surjective_pairing.
  erewrite bind_ok by (rewrite on_a_run, map_err_run; fold preq; rewrite CA7, PE; reflexivity).
  assert (NF6' : no_faults (disk (set_a a6 c7))) by (rewrite set_a_disk; exact NF6).
  destruct (flush_opt (option_map EFile fh) (set_a a6 c7)) as [o8 c8] eqn:F8.
  destruct (flush_opt_any _ _ _ _ F8) as (_ & _ & _ & _ & _ & _ & _ & C8). destruct (C8 NF6') as [DC8 OK8].
  rewrite OK8 in F8 by (intros x X; destruct fh as [hh|]; [|discriminate]; injection X as <-; eauto).
  rewrite (bind_ok _ _ _ _ _ F8).
  destruct (storage (flush_file (EFile ho)) c8) as [o9 c9] eqn:F9.
  destruct (storage_inv _ _ _ _ F9) as (r9 & s9 & FF & -> & ->).
  destruct (flush_file_any _ _ _ _ FF) as (_ & _ & _ & C9). rewrite DC8 in C9. destruct (C9 NF6') as [-> OK9].
  rewrite (OK9 ho eq_refl) in F9. cbn [omap] in F9. rewrite (bind_ok _ _ _ _ _ F9).
  match goal with |- exists c1 s7 ho fh qo, (if cp_hash p then hash_files V [output] else ret tt) ?x = _ /\ _ => set (c10 := x) end.
  assert (D10 : disk c10 = fst a6) by (unfold c10; rewrite set_disk_disk, set_a_disk; reflexivity).
  assert (X : exists c1, (if cp_hash p then hash_files V [output] else ret tt) c10 = (Ok tt, c1) /\ disk c1 = fst a6).
  { destruct (cp_hash p); [|exists c10; auto].
    destruct (hash_files V [output] c10) as [o11 c11] eqn:HF.
    destruct (hash_files_any _ _ _ _ _ HF) as (_ & _ & _ & _ & _ & _ & _ & CH8).
    rewrite D10 in CH8. destruct (CH8 NF6) as [CA RES]. destruct (RES [h_ino ho]) as [-> _].
    - constructor; [|constructor]. unfold stat in *. rewrite N6, (resolve_nodes true s7 (fst a6)) by assumption. exact ST7.
    - exists c11. split; [reflexivity|]. unfold disk. rewrite CA. exact D10. }
  destruct X as (c1 & R1 & D1). exists c1, s7, ho, fh, qo. rewrite D1. auto.
Qed.

End Packing.

(** ** The commands *)

Lemma erase_file_works : forall V g c input i,
  no_faults (disk c) -> given g "input" input -> stat (disk c) (os_path input) = Some (NFile i) ->
  exists c', run_command V CmdErase g c = (Ok tt, c')
    /\ stat (disk c') (os_path input) = None /\ s_data (disk c') i = [].
Proof.
  intros V g c input i NF GI ST.
  destruct (erase_cmd_run V g c input GI) as (n & RC).
  destruct (run_command V CmdErase g c) as [o c'] eqn:R. exists c'. symmetry in RC.
  assert (STP : stat (disk (printed n c)) (os_path input) = Some (NFile i)) by (rewrite printed_disk; exact ST).
  destruct (secure_erase_file _ _ _ _ _ _ _ _ RC STP) as [(_ & _ & X)|(s1 & oe & D & C & ER & ->)].
  { exfalso. apply X. rewrite printed_disk. exact NF. }
  rewrite printed_disk in *. rewrite (C NF) in ER.
  pose proof (erase_holds _ _ _ _ _ ER) as (_ & OKH & _ & CALM & _).
  assert (oe = Ok tt) by (eapply CALM; eauto). subst oe.
  split; [reflexivity|]. destruct (OKH eq_refl) as (j & q & _ & _ & SN & _). split; [exact SN|].
  destruct (erase_stage_of _ _ _ _ _ _ _ (same_disk_refl _) ST ER) as [(_ & X)|(_ & DE & _)]; [discriminate|exact DE].
Qed.

Lemma secure_erase_dir : forall V input passes force c o c' q,
  tree_ok (disk c) -> no_faults (disk c) ->
  resolve true (disk c) (os_path input) = Some q -> resolve false (disk c) (os_path input) = Some q ->
  lookup (s_nodes (disk c)) q = Some NDir -> q <> [] ->
  no_links_inside (disk c) q -> no_outside_names (disk c) q ->
  (force = Force \/ exists ls n r, lines (c_stdin c) ls /\ dialogue false ls (Some true) n r) ->
  secure_erase V input passes force c = (o, c') ->
  (o = Ok tt
   /\ (forall r, inside q r -> at_place (disk c') r = None)
   /\ (forall r, ~ inside q r -> at_place (disk c') r = at_place (disk c) r)
   /\ (forall r, ~ inside q r -> lookup (s_nodes (disk c')) r = lookup (s_nodes (disk c)) r)
   /\ no_faults (disk c'))
  \/ (o = Diverge /\ exists k, k < List.length (s_nodes (disk c)) /\ turns (ce_sched V) k < 6).
Proof.
  intros V input passes force c o c' q TO NF RT RF L NE NL NO AG H. unfold secure_erase in H.
  assert (RD : storage (read_file (os_path input)) c = (Ok (EDir (os_path input)), c)).
  { rewrite storage_run. assert (X : read_file (os_path input) (disk c) = (Ok (EDir (os_path input)), disk c)).
    { unfold read_file, is_dir, stat. rewrite RT, L. reflexivity. }
    rewrite X. cbn [fst snd omap]. unfold set_disk, disk. rewrite <- surjective_pairing, <- cli_eta. reflexivity. }
  rewrite (bind_ok _ _ _ _ _ RD) in H. cbn [entry_is_dir] in H.
  assert (GA : exists c1, get_answer erase_dir_prompt false force c = (Ok true, c1) /\ c_a c1 = c_a c).
  { destruct AG as [->|(ls & n & r & LS & DI)]; [exists c; auto|].
    destruct force; [exists c; auto|].
    pose proof (get_answer_holds erase_dir_prompt false Prompt c ls LS) as G. cbv beta iota in G.
    destruct G as (o' & n' & r' & c1 & ns & DI' & E & _ & CA & _).
    assert (o' = Some true) by (eapply dialogue_unique; eauto). subst o'. eauto. }
  destruct GA as (c1 & GA & CA). rewrite (bind_ok _ _ _ _ _ GA) in H.
  rewrite on_fs_run, map_err_run in H.
  assert (D1 : disk c1 = disk c) by (unfold disk; rewrite CA; reflexivity). rewrite D1 in H.
  destruct (erase_dir_execute (ce_sched V) (EDir (os_path input)) passes (disk c)) as [o1 s1] eqn:ED.
  cbn [fst snd] in H. injection H as <- <-. rewrite set_disk_disk.
  destruct (erase_dir_holds _ _ _ _ _ _ _ TO NF RT RF L NE NL NO ED) as [(-> & A & B)|(-> & X)]; [left|right]; auto.
  destruct (erase_dir_all _ _ _ _ TO NF RT RF L NE NL _ _ _ ED) as [(_ & _ & C & _ & N)|(X & _)]; [|discriminate]. auto.
Qed.

Lemma erase_dir_works : forall V g c input q o c',
  tree_ok (disk c) -> no_faults (disk c) -> given g "input" input ->
  resolve true (disk c) (os_path input) = Some q -> resolve false (disk c) (os_path input) = Some q ->
  lookup (s_nodes (disk c)) q = Some NDir -> q <> [] ->
  no_links_inside (disk c) q -> no_outside_names (disk c) q -> erase_agreed g c ->
  run_command V CmdErase g c = (o, c') ->
  (o = Ok tt
   /\ (forall r, inside q r -> at_place (disk c') r = None)
   /\ (forall r, ~ inside q r -> at_place (disk c') r = at_place (disk c) r))
  \/ (o = Diverge /\ exists k, k < List.length (s_nodes (disk c)) /\ turns (ce_sched V) k < 6).
Proof.
  intros V g c input q o c' TO NF GI RT RF L NE NL NO AG H.
  destruct (erase_cmd_run V g c input GI) as (n & RC). rewrite RC in H.
  destruct (secure_erase_dir V input (passes_of (g "passes"%string)) match g "force"%string with [] => Prompt | _ :: _ => Force end
    (printed n c) o c' q TO NF RT RF L NE NL NO) as [(A & B & C & _)|X].
  - destruct AG as [F|AG]; [left|right; exact AG]. destruct (g "force"%string); [contradiction|reflexivity].
  - exact H.
  - left. repeat split; assumption.
  - right. exact X.
Qed.

(** Directories named directly. *)
Lemma prefix_dir : forall s, tree_ok s -> forall b a x, lookup (s_nodes s) (a ++ b) = Some x -> b <> [] ->
  lookup (s_nodes s) a = Some NDir.
Proof.
  intros s T b. induction b as [|n b IH] using rev_ind; intros a x L NE; [congruence|].
  rewrite app_assoc in L. pose proof (parent_dir s (a ++ b) n x T L) as P.
  destruct b as [|m b]; [rewrite app_nil_r in P; exact P|]. eapply IH; [exact P|discriminate].
Qed.

Lemma walk_direct : forall t l f cs cur, Forall good_comp cs ->
  (forall a b, names_of cs = a ++ b -> a <> [] -> lookup t (cur ++ a) = Some NDir) ->
  walk l t f cur cs = Some (cur ++ names_of cs).
Proof.
  intros t l f. induction cs as [|x cs IH]; intros cur G D.
  - rewrite walk_nil, app_nil_r. reflexivity.
  - apply Forall_cons_iff in G. destruct G as [GX G]. destruct x as [| |n]; cbn [names_of good_comp] in *.
    + rewrite walk_cur. apply IH; assumption.
    + contradiction.
    + rewrite walk_nm, (D [n] (names_of cs) eq_refl) by discriminate. rewrite IH; [|exact G|].
      * rewrite <- app_assoc. reflexivity.
      * intros a b E NE. rewrite <- app_assoc. apply (D (n :: a) b); [cbn; congruence|discriminate].
Qed.

Lemma direct_resolve : forall s f p, tree_ok s -> packable p ->
  lookup (s_nodes s) (s_cwd s ++ names_of (p_comps p)) = Some NDir ->
  resolve f s p = Some (s_cwd s ++ names_of (p_comps p)).
Proof.
  intros s f p T (AB & G & _) L. rewrite resolve_eq. unfold FSFacts.start. rewrite AB.
  apply walk_direct; [exact G|]. intros a b E NE. rewrite E in L. rewrite app_assoc in L.
  destruct b as [|x b]; [rewrite app_nil_r in L; exact L|].
  eapply prefix_dir; [exact T|exact L|discriminate].
Qed.

(** Erasing directories one after the other. *)
Lemma trimmed_count : forall s0 s, tree_ok s0 -> trimmed s0 s -> List.length (s_nodes s) <= List.length (s_nodes s0).
Proof.
  intros s0 s (ND0 & NR0 & P0) [_ T G]. pose proof T as (ND & NR & P).
  rewrite <- (map_length fst (s_nodes s)), <- (map_length fst (s_nodes s0)).
  apply NoDup_incl_length; [exact ND|]. intros k I.
  assert (NK : k <> []) by (intros ->; contradiction).
  destruct (key_lookup s k T I) as [n L]. eapply lookup_key; [exact NK|]. apply G, L.
Qed.

Lemma erase_dirs_works : forall V passes s0, tree_ok s0 ->
  forall dirs inputs, map os_path inputs = map fst dirs -> apart (map given_names dirs) ->
  forall c o c', trimmed s0 (disk c) -> no_faults (disk c) ->
  (forall d, In d dirs -> packable (fst d) /\ snd d = s_cwd (disk c) ++ given_names d /\ snd d <> []
     /\ lookup (s_nodes (disk c)) (snd d) = Some NDir /\ no_links_inside (disk c) (snd d) /\ no_outside_names (disk c) (snd d)) ->
  each_ (fun f => secure_erase V f passes Force) inputs c = (o, c') ->
  (o = Ok tt /\ (forall d r, In d dirs -> inside (snd d) r -> at_place (disk c') r = None)
   /\ (forall r, (forall d, In d dirs -> ~ inside (snd d) r) -> at_place (disk c') r = at_place (disk c) r))
  \/ (o = Diverge /\ exists k, k < List.length (s_nodes s0) /\ turns (ce_sched V) k < 6).
Proof.
  intros V passes s0 T0. induction dirs as [|d dirs IH]; intros [|f inputs] EI AP c o c' TR NF OK H; try discriminate;
    cbn [each_ map] in *.
  - unfold ret in H. injection H as <- <-. left. split; [reflexivity|]. split; [intros d r []|auto].
  - injection EI as E1 E2. destruct AP as [AD AP].
    destruct (OK d (or_introl eq_refl)) as (PK & PL & NE & L & NL & NO).
    assert (RS : forall b, resolve b (disk c) (os_path f) = Some (snd d)).
    { intros b. rewrite E1, PL. apply direct_resolve; [apply TR|exact PK|]. fold (given_names d). rewrite <- PL. exact L. }
    unfold bind in H. destruct (secure_erase V f passes Force c) as [o1 c1] eqn:SE.
    destruct (secure_erase_dir V f _ _ c o1 c1 (snd d) (tr_tree _ _ TR) NF (RS true) (RS false) L NE NL NO (or_introl eq_refl) SE)
      as [(-> & GONE & KEEP & LK & NF1)|(-> & k & K1 & K2)].
    2:{ injection H as <- <-. right. split; [reflexivity|]. exists k. split; [|exact K2].
        pose proof (trimmed_count _ _ T0 TR). lia. }
    assert (TR1 : trimmed (disk c) (disk c1)).
    { eapply erase_trim; [apply TR|exact SE|]. unfold stat. rewrite (RS true). exact L. }
    assert (OUT : forall d' r, In d' dirs -> inside (snd d') r -> ~ inside (snd d) r).
    { intros d' r ID [x ->] [y E]. destruct (OK d' (or_intror ID)) as (_ & PL' & _). rewrite PL, PL', <- !app_assoc in E.
      apply app_inv_head in E.
      rewrite Forall_forall in AD. destruct (AD (given_names d') (in_map _ _ _ ID)) as [A B].
      clear - E A B. unfold inside in *. revert E A B. generalize (given_names d) (given_names d').
      intros l l'. revert l'. induction l as [|a l IHl]; intros [|b l'] E A B; cbn in *.
      - apply A. exists []. reflexivity.
      - apply A. exists (b :: l'). reflexivity.
      - apply B. exists (a :: l). reflexivity.
      - injection E as -> E. apply (IHl l' E); intros [z Z]; [apply A|apply B]; exists z; congruence. }
    apply (IH inputs E2 AP) in H; [|eapply trimmed_trans; eauto|exact NF1|].
    + destruct H as [(-> & G & K)|X]; [left|right; exact X]. split; [reflexivity|]. split.
      * intros d' r [<-|ID] IR; [|eapply G; eauto].
        destruct (existsb (fun e => below (snd e) r) dirs) eqn:EX.
        { apply existsb_exists in EX. destruct EX as (e & IE & B). apply below_inside in B. eapply G; eauto. }
        rewrite K; [apply GONE, IR|]. intros e IE B. apply below_inside in B.
        assert (X : existsb (fun e => below (snd e) r) dirs = true) by (apply existsb_exists; eauto). congruence.
      * intros r NI. rewrite K; [apply KEEP, NI; left; reflexivity|]. intros e IE. apply NI. right. exact IE.
    + intros d' ID. destruct (OK d' (or_intror ID)) as (PK' & PL' & NE' & L' & NL' & NO').
      assert (IQ : inside (snd d') (snd d')) by (exists []; symmetry; apply app_nil_r).
      split; [exact PK'|]. split; [rewrite (tr_cwd _ _ TR1); exact PL'|]. split; [exact NE'|].
      split; [rewrite (LK _ (OUT d' _ ID IQ)); exact L'|]. split.
      * intros r t IR. rewrite (LK r (OUT d' r ID IR)). apply NL', IR.
      * intros r r' i IR NR LR LR'. rewrite (LK r (OUT d' r ID IR)) in LR.
        apply (NO' r r' i IR NR LR). apply (tr_grown _ _ TR1), LR'.
Qed.

Lemma made_count : forall P s output header s7 ho fh qo, made P s output header s7 ho fh qo ->
  List.length (s_nodes s7) <= List.length (s_nodes s) + S (match header with Some _ => 1 | None => 0 end).
Proof.
  intros P s output header s7 ho fh qo MD. pose proof (md_tree _ _ _ _ _ _ _ _ MD) as TO7. pose proof TO7 as (ND & NR & _).
  set (new := qo :: match header with Some h => match resolve true s h with Some q => [q] | None => [] end | None => [] end).
  assert (LN : List.length new <= S (match header with Some _ => 1 | None => 0 end)).
  { unfold new. destruct header as [h|]; [destruct (resolve true s h)|]; cbn; lia. }
  assert (X : List.length (map fst (s_nodes s7)) <= List.length (map fst (s_nodes s) ++ new)).
  { apply NoDup_incl_length; [exact ND|]. intros k I. apply in_or_app.
    assert (NK : k <> []) by (intros ->; contradiction).
    destruct (key_lookup s7 k TO7 I) as [n L].
    destruct (in_dec (list_eq_dec string_dec) k new) as [IN|NI]; [right; exact IN|left].
    eapply lookup_key; [exact NK|]. rewrite <- (md_others _ _ _ _ _ _ _ _ MD); [exact L| |].
    - intros ->. apply NI. left. reflexivity.
    - intros h -> R. apply NI. right. rewrite R. left. reflexivity. }
  rewrite app_length, !map_length in X. lia.
Qed.

(** ** The command pack *)

Section Pack.

Variables (V : cenv) (g : string -> list string) (c : cli) (output : string) (dirs : list (path * cpath)) (T : cpath)
  (k : key) (raw : bytes) (t : list (option bytes)).
Hypothesis EO : env_ok (ce_E V).
Hypothesis TO : tree_ok (disk c).
Hypothesis NF : no_faults (disk c).
Hypothesis IO : inodes_ok (disk c).
Hypothesis GO : given g "output" output.
Hypothesis TP : to_pack g (disk c) output dirs.
Hypothesis CO : can_write g (disk c) (os_path output).
Hypothesis CH : forall h, given g "header" h -> can_write g (disk c) (os_path h).
Hypothesis RT : resolve false (disk c) (temp_path (ce_pick V) (disk c)) = Some T.
Hypothesis LT : lookup (s_nodes (disk c)) T = None.
Hypothesis NT : forall x, In x (write_targets g output) -> resolve true (disk c) x <> Some T.
Hypothesis KS : key_source V CmdPack g k.
Hypothesis Y : yields V c k Validate raw t.
Hypothesis KDF : hashes (ce_E V) (kdf_asked g) raw.
Hypothesis SIZE : forall zs, archive_of (disk c) dirs zs ->
  encryptable (ce_E V) (z_encode (ce_Z V) (match g "zstd"%string with [] => Stored | _ => Zstd end) zs).

Lemma pack_cmd_works : exists p pp c1 s7 ho fh qo, params_of V CmdPack g p /\ (pp_erase pp = true <-> g "erase"%string <> [])
  /\ run_command V CmdPack g c = pack_finish V (g "input"%string) p pp c1
  /\ made True (disk c) (os_path output) (option_map os_path (cp_header p)) s7 ho fh qo
  /\ s_nodes (disk c1) = s_nodes s7 /\ s_cwd (disk c1) = s_cwd s7 /\ no_faults (disk c1).
Proof.
  pose proof (to_pack_stat _ _ _ _ TP) as ST. pose proof TP as [EI NED PD AP EL ELH].
  remember (g "input"%string) as inputs eqn:GI.
  assert (NEI : inputs <> []).
  { intros X. rewrite X in EI. destruct dirs; [congruence|discriminate]. }
  destruct (pack_cmd_run V g c inputs output NEI (eq_sym GI) GO) as (p & pp & n & PO & PE & PC & RC).
  assert (K : cp_key p = k) by (eapply key_source_unique; [apply PO|exact KS]).
  assert (N1 : existsb (fun f => String.eqb f output) inputs = false).
  { destruct (existsb _ _) eqn:E; [|reflexivity]. apply existsb_exists in E. destruct E as (f & I & E).
    apply String.eqb_eq in E. subst f. specialize (ST _ I).
    destruct CO as [(q & R & L)|(_ & j & SJ)]; [|congruence].
    pose proof (free_followed _ _ _ NF R L) as R'. unfold stat in ST. rewrite R', L in ST. discriminate. }
  assert (N2 : existsb (fun f => is_file (disk (printed n c)) (os_path f)) inputs = false).
  { rewrite printed_disk. clear - ST. induction inputs as [|f l IH]; [reflexivity|]. cbn [existsb].
    rewrite IH by (intros x I; apply ST; right; exact I). unfold is_file. rewrite (ST f (or_introl eq_refl)). reflexivity. }
  destruct (pack_main_works V g p pp inputs output (algorithm_asked g) (printed n c) dirs raw t T
    EO TO NF IO PO (eq_sym GI) TP CO CH RT LT NT)
    as (c1 & s7 & ho & fh & qo & PM & MD & A & B & C).
  { rewrite K. apply yields_printed. exact Y. }
  { eapply packing_hashing; eauto. }
  { rewrite PC. exact SIZE. }
  exists p, pp, c1, s7, ho, fh, qo. do 2 (split; [assumption|]). split; [|auto].
  rewrite RC, pack_cli_eq by assumption. rewrite (bind_ok _ _ _ _ _ PM). reflexivity.
Qed.

Lemma pack_works : not_given g "erase" -> exists c', run_command V CmdPack g c = (Ok tt, c').
Proof.
  intros NE. destruct pack_cmd_works as (p & pp & c1 & _ & _ & _ & _ & _ & PE & -> & _).
  unfold pack_finish. destruct (pp_erase pp); [|exists c1; reflexivity].
  exfalso. apply PE; [reflexivity|exact NE].
Qed.

Lemma pack_erase_works : g "erase"%string <> [] -> g "force"%string <> [] ->
  Forall (fun d => snd d = s_cwd (disk c) ++ given_names d /\ no_outside_names (disk c) (snd d)) dirs ->
  forall o c', run_command V CmdPack g c = (o, c') ->
  (o = Ok tt /\ forall d r, In d dirs -> inside (snd d) r -> at_place (disk c') r = None)
  \/ (o = Diverge /\ exists i, i < List.length (s_nodes (disk c)) + 2 /\ turns (ce_sched V) i < 6).
Proof.
  intros GE GF DIR o c' H. destruct pack_cmd_works as (p & pp & c1 & s7 & ho & fh & qo & PO & PE & RC & MD & N1 & W1 & NF1).
  rewrite RC in H. clear RC. pose proof TP as [EI NED PD AP EL ELH].
  unfold pack_finish in H. rewrite (proj2 PE GE) in H. rewrite (proj2 (po_force _ _ _ _ PO) GF) in H.
  assert (HG : forall h, cp_header p = Some h -> given g "header" h).
  { intros h X. rewrite (po_header _ _ _ _ PO) in X. unfold given. destruct (g "header"%string) as [|y l]; [discriminate|].
    injection X as ->. eauto. }
  assert (TO1 : tree_ok (disk c1)) by (unfold tree_ok; rewrite N1; apply MD).
  pose proof (made_count _ _ _ _ _ _ _ _ MD) as CNT.
  pose proof (md_writes _ _ _ _ _ _ _ _ MD) as W7.
  eapply (erase_dirs_works V 1%Z (disk c1) TO1 dirs _ EI AP c1) in H; [|apply trimmed_refl, TO1|exact NF1|].
  - destruct H as [(-> & G & _)|(-> & i & I1 & I2)]; [left; auto|right]. split; [reflexivity|]. exists i. split; [|exact I2].
    rewrite N1 in I1. destruct (option_map os_path (cp_header p)); lia.
  - intros d ID. rewrite Forall_forall in DIR. destruct (DIR d ID) as [PL NO].
    rewrite Forall_forall in PD. destruct (PD d ID) as [PK R L NL _].
    rewrite Forall_forall in EL.
    destruct (md_inside _ _ _ _ _ _ _ _ MD (snd d) (EL d ID)) as (_ & _ & IN).
    { intros h X. destruct (cp_header p) as [h'|] eqn:CP; [|discriminate]. injection X as <-.
      destruct (ELH h' (HG h' eq_refl)) as [_ EH]. rewrite Forall_forall in EH. exact (EH d ID). }
    assert (IQ : inside (snd d) (snd d)) by (exists []; symmetry; apply app_nil_r).
    rewrite N1, W1, (ow_cwd _ _ _ W7). split; [exact PK|]. split; [exact PL|]. split.
    { rewrite PL. unfold given_names. destruct PK as (_ & _ & a & x & ->). rewrite nm_app. cbn.
      intros X. apply app_eq_nil in X. destruct X as [_ X]. apply app_eq_nil in X. destruct X. discriminate. }
    split; [rewrite (proj1 (proj2 (IN _ IQ))); exact L|]. split.
    + intros r t' IR. rewrite N1, (proj1 (proj2 (IN r IR))). apply NL, IR.
    + intros r r' i IR NR. rewrite N1. intros LR LR'. rewrite (proj1 (proj2 (IN r IR))) in LR.
      destruct (ow_nodes _ _ _ W7 r') as [E|(_ & j & E & B)].
      * rewrite E in LR'. exact (NO r r' i IR NR LR LR').
      * pose proof (IO r i LR). assert (i = j) by congruence. lia.
Qed.

End Pack.
