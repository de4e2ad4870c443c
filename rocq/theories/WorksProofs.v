(** Commands that succeed because nothing is in the way. *)
From Coq Require Import List Arith NArith ZArith Ascii String Bool Lia.
From Verif Require Import Bytes Outcome IO Primitives Crypto Header Stream KeyModel EncDec Overwrite Hash FS Erase Archive.
From Verif Require Import HeaderFacts BytesFacts IOSpec IOFacts FileSpec FileFacts FileProofs ToolProofs FSSpec FSFacts EraseProofs.
From Verif Require Import ArchiveSpec ArchiveProofs WorldFrames.
From Verif Require Import Cli CliSpec CliKeys CliRuns CliCommands CliProofs CliPack ChoiceSpec ChoiceProofs DecryptSpec DecryptProofs WorksSpec.
Import ListNotations.
Local Open Scope nat_scope.
Local Open Scope list_scope.
Strategy 1000 [walk MAX_LINKS resolve].

Lemma create_works : forall s p, no_faults s -> free_name s p \/ (exists j, stat s p = Some (NFile j)) ->
  exists h s', create_or_write p s = (Ok (EFile h), s').
Proof.
  intros s p NF [(q & R & L)|(j & ST)].
  { destruct (create_free s p q NF R L) as (h & s' & X & _). eauto. }
  unfold create_or_write, or_else. destruct (create_file p s) as [o s1] eqn:C.
  destruct (create_file_any _ _ _ _ C) as [(-> & D & X)|(q & plan & R & L & -> & _)].
  - destruct (X NF) as [-> _].
    unfold write_file. rewrite call_or_calm by apply NF. rewrite ST. unfold new_handle.
    destruct (next_plan _) as [pl s2]. eauto.
  - eauto.
Qed.

Lemma check_works : forall V cmd g p c name, params_of V cmd g p -> can_write g (disk c) (os_path name) ->
  check_or_exit name (cp_force p) c = (Ok tt, c).
Proof.
  intros V cmd g p c name PO [(q & R & L)|(F & j & ST)]; unfold check_or_exit, bind, overwrite_check; fold (disk c); unfold exists_path.
  - rewrite (free_absent _ _ _ R L). reflexivity.
  - rewrite ST. apply (po_force _ _ _ _ PO) in F. rewrite F. reflexivity.
Qed.

Lemma can_create : forall g s p, can_write g s p -> free_name s p \/ (exists j, stat s p = Some (NFile j)).
Proof. intros g s p [A|[_ B]]; auto. Qed.

(** A free name is found when the last link is followed, too. *)
Lemma free_followed : forall s p q, no_faults s -> resolve false s p = Some q -> lookup (s_nodes s) q = None ->
  resolve true s p = Some q.
Proof.
  intros s p q NF R L. destruct (create_free s p q NF R L) as (h & s' & C & HI & _ & _ & _ & N & _).
  destruct (ow_create_or_write s [p] _ _ _ _ (ow_refl _ _) (or_introl eq_refl) C) as [W _].
  rewrite <- (ow_resolve true _ _ _ p W). eapply resolve_same.
  - rewrite (ow_resolve false _ _ _ p W). exact R.
  - rewrite N, lookup_add, cpath_eqb_refl by exact L. reflexivity.
  - discriminate.
Qed.

(** Creating one file leaves the other one as writable as it was. *)
Lemma can_write_after : forall g s p p' h s', no_faults s -> inodes_ok s -> can_write g s p' -> different s p p' ->
  create_or_write p s = (Ok (EFile h), s') ->
  can_write g s' p' /\ forall j, stat s' p' = Some (NFile j) -> j <> h_ino h.
Proof.
  intros g s p p' h s' NF IO CW [D1 D2] C.
  destruct (ow_create_or_write s [p] _ _ _ _ (ow_refl _ _) (or_introl eq_refl) C) as [W _].
  pose proof (cow_stat _ _ _ _ C) as ST.
  destruct (create_or_write_any _ _ _ _ C)
    as [(e & X & D)|(h' & X & HP & PO & DE & CD & T & G & D & CF & NEW)]; [discriminate|]. injection X as <-.
  split.
  - destruct CW as [(q & R & L)|(F & j & STJ)].
    + left. exists q. rewrite (ow_resolve false _ _ _ _ W). split; [exact R|].
      destruct NEW as [(q0 & R0 & L0 & HI & NX & N & _)|(STH & _ & N & _)]; [|rewrite N; exact L].
      rewrite N, lookup_add by exact L0. destruct (cpath_eqb q q0) eqn:E; [|exact L]. exfalso.
      apply cpath_eqb_eq in E. subst q0. apply D1.
      rewrite (free_followed _ _ _ NF R L), (free_followed _ _ _ NF R0 L0). reflexivity.
    + right. split; [exact F|]. exists j. eapply ow_stat_kept; eauto.
  - intros j STJ ->. destruct NEW as [(q0 & R0 & L0 & HI & NX & N & _)|(STH & _ & N & _)].
    + unfold stat in STJ. destruct (resolve true s' p') as [r|] eqn:RR; [|discriminate].
      rewrite (ow_resolve true _ _ _ _ W) in RR. rewrite N, lookup_add in STJ by exact L0.
      destruct (cpath_eqb r q0) eqn:E.
      * apply cpath_eqb_eq in E. subst r. apply D1. rewrite (free_followed _ _ _ NF R0 L0), RR. reflexivity.
      * apply IO in STJ. lia.
    + apply (D2 _ STH). unfold stat in *. rewrite (ow_resolve true _ _ _ _ W), N in STJ. exact STJ.
Qed.

(** The input is none of the files created. *)
Lemma created_other : forall s p i h s', inodes_ok s -> i < s_next s -> stat s p <> Some (NFile i) ->
  create_or_write p s = (Ok (EFile h), s') -> h_ino h <> i.
Proof.
  intros s p i h s' IO LT NS C X. pose proof (cow_stat _ _ _ _ C) as ST.
  destruct (create_or_write_any _ _ _ _ C)
    as [(e & Y & D)|(h' & Y & HP & PO & DE & CD & T & G & D & CF & NEW)]; [discriminate|]. injection Y as <-.
  destruct NEW as [(q0 & R0 & L0 & HI & _)|(STH & _)]; [lia|]. rewrite X in STH. contradiction.
Qed.

Lemma bind_run : forall {S E A B} (m : M S E A) (f : A -> M S E B) s, bind m f s
  = match m s with (Ok a, s') => f a s' | (Err e, s') => (Err e, s') | (Panic, s') => (Panic, s')
    | (Diverge, s') => (Diverge, s') end.
Proof. reflexivity. Qed.

Lemma encrypt_forward : forall V g p input output a c i raw t,
  env_ok (ce_E V) -> no_faults (disk c) -> inodes_ok (disk c) -> params_of V CmdEncrypt g p ->
  stat (disk c) (os_path input) = Some (NFile i) ->
  (N.of_nat (List.length (s_data (disk c) i) / BLOCK_SIZE) <= counter_max (ce_E V))%N ->
  (forall salt, exists key, hash (ce_E V) (cp_hashing p) raw salt = Ok key) ->
  (forall x, In x (write_targets g output) -> stat (disk c) x <> Some (NFile i)) ->
  can_write g (disk c) (os_path output) ->
  (forall h, given g "header" h -> can_write g (disk c) (os_path h) /\ different (disk c) (os_path output) (os_path h)) ->
  yields V c (cp_key p) Validate raw t ->
  exists c1, encrypt_main V input output p a c = (Ok tt, c1).
Proof.
  intros V g p input output a c i raw t HE NF IO PO ST SIZE KDF SEP CO CH Y. unfold encrypt_main.
  rewrite (bind_ok _ _ _ _ _ (check_works _ _ _ _ _ _ PO CO)).
  assert (SD : set_disk (disk c) c = c).
  { unfold set_disk, disk. rewrite <- surjective_pairing. symmetry. apply cli_eta. }
  assert (RF : storage (read_file (os_path input)) c = (Ok (EFile (mkHandle (os_path input) i 0 [])), c)).
  { rewrite storage_run, (read_file_calm _ _ _ NF ST). cbn [fst snd omap]. rewrite SD. reflexivity. }
  rewrite (bind_ok _ _ _ _ _ RF).
  destruct (get_secret_ok _ _ _ _ _ _ NF Y) as (c2 & GS & _).
  destruct (get_secret_any _ _ _ _ _ _ GS) as (D2 & T2 & NF2 & _). specialize (NF2 NF).
  rewrite (bind_ok _ _ _ _ _ GS).
  assert (NI : i < s_next (disk c)).
  { unfold stat in ST. destruct (resolve true (disk c) (os_path input)); [|discriminate]. exact (IO _ _ ST). }
  pose proof D2 as (DN & DD & DX & DC & _).
  assert (IO2 : inodes_ok (disk c2)) by (unfold inodes_ok; rewrite DN, DX; exact IO).
  assert (CWD : forall x, can_write g (disk c) x -> can_write g (disk c2) x).
  { intros x [(q & R & L)|(F & j & STJ)]; [left; exists q|right; split; [exact F|exists j]].
    - rewrite (resolve_disk false _ _ _ D2), DN. auto.
    - rewrite (stat_disk _ _ _ D2). exact STJ. }
  destruct (create_works (disk c2) (os_path output) NF2 (can_create _ _ _ (CWD _ CO))) as (ho & s3 & C3).
  assert (SC : storage (create_or_write (os_path output)) c2 = (Ok (EFile ho), set_disk s3 c2)).
  { rewrite storage_run, C3. reflexivity. }
  rewrite (bind_ok _ _ _ _ _ SC).
  destruct (ow_create_or_write (disk c2) [os_path output] _ _ _ _ (ow_refl _ _) (or_introl eq_refl) C3) as [W3 _].
  destruct (create_or_write_any _ _ _ _ C3)
    as [(e & X & _)|(h' & X & HP & PO3 & DE & CD & T & G & D3 & CF & NEW)]; [discriminate|]. injection X as <-.
  destruct (CF NF2) as [NF3 PL3].
  assert (OI : h_ino ho <> i).
  { eapply created_other; [exact IO2|lia| |exact C3]. rewrite (stat_disk _ _ _ D2). apply SEP. left. reflexivity. }
  (* the header file *)
  assert (OH : exists e c4 hh, open_header p (set_disk s3 c2) = (Ok e, c4) /\ ok_handle e = hh
     /\ no_faults (disk c4) /\ (forall x, e = Some x -> exists h, x = EFile h)
     /\ s_data (disk c4) i = s_data (disk c) i /\ i < s_next (disk c4)
     /\ stat (disk c4) (os_path output) = Some (NFile (h_ino ho))
     /\ (forall h, hh = Some h -> h_ino h <> i /\ h_ino h <> h_ino ho /\ h_plan h = [])).
  { assert (W03 : only_writes (disk c) (write_targets g output) s3).
    { destruct (ow_create_or_write (disk c) (write_targets g output) _ _ _ _ (ow_disk _ _ _ D2) (or_introl eq_refl) C3) as [W _]. exact W. }
    assert (DI3 : s_data s3 i = s_data (disk c) i) by (rewrite D3 by congruence; congruence).
    unfold open_header. rewrite (po_header _ _ _ _ PO). destruct (g "header"%string) as [|hn r] eqn:GH; cbn [hd_error].
    - exists None, (set_disk s3 c2), None. split; [reflexivity|]. split; [reflexivity|]. rewrite set_disk_disk.
      split; [exact NF3|]. split; [discriminate|]. split; [exact DI3|].
      split; [pose proof (ow_next _ _ _ W03); lia|]. split; [eapply cow_stat; exact C3|discriminate].
    - destruct (CH hn) as [CWH DIF]; [exists r; exact GH|].
      assert (DIF2 : different (disk c2) (os_path output) (os_path hn)).
      { destruct DIF as [A B]. split; [rewrite !(resolve_disk true _ _ _ D2); exact A|].
        intros j. rewrite !(stat_disk _ _ _ D2). apply B. }
      destruct (can_write_after g (disk c2) (os_path output) (os_path hn) ho s3 NF2 IO2 (CWD _ CWH) DIF2 C3) as [CW3 OTH].
      assert (IO3 : inodes_ok s3) by (eapply ow_inodes; [exact IO2|exact W3]).
      rewrite <- (set_disk_disk s3 c2) in CW3.
      rewrite (bind_ok _ _ _ _ _ (check_works _ _ _ _ _ _ PO CW3)). rewrite set_disk_disk in CW3.
      destruct (create_works s3 (os_path hn) NF3 (can_create _ _ _ CW3)) as (hh & s4 & C4).
      assert (SC4 : storage (create_or_write (os_path hn)) (set_disk s3 c2) = (Ok (EFile hh), set_disk s4 (set_disk s3 c2))).
      { rewrite storage_run, set_disk_disk, C4. reflexivity. }
      rewrite (bind_ok _ _ _ _ _ SC4).
      assert (IT : In (os_path hn) (write_targets g output)) by (unfold write_targets; rewrite GH; right; left; reflexivity).
      destruct (ow_create_or_write (disk c) (write_targets g output) _ _ _ _ W03 IT C4) as [W04 _].
      destruct (create_or_write_any _ _ _ _ C4)
        as [(e & X & _)|(h4 & X & HP4 & PO4 & DE4 & CD4 & T4 & G4 & D4 & CF4 & NEW4)]; [discriminate|]. injection X as <-.
      destruct (CF4 NF3) as [NF4 PL4].
      assert (HI4 : h_ino hh <> i).
      { eapply created_other; [exact IO3|pose proof (ow_next _ _ _ W03); lia| |exact C4].
        intros X. destruct (ow_stat_new _ _ _ _ _ W03 X) as [Y'|(_ & j & Y' & L)].
        - exact (SEP _ IT Y').
        - injection Y' as <-. lia. }
      exists (Some (EFile hh)), (set_disk s4 (set_disk s3 c2)), (Some hh). split; [reflexivity|]. split; [reflexivity|].
      rewrite set_disk_disk. split; [exact NF4|]. split; [intros x X; injection X as <-; eauto|].
      split; [rewrite D4 by congruence; exact DI3|]. split; [pose proof (ow_next _ _ _ W04); lia|].
      split.
      { destruct (ow_create_or_write s3 [os_path hn] _ _ _ _ (ow_refl _ _) (or_introl eq_refl) C4) as [W34 _].
        eapply ow_stat_kept; [exact W34|]. eapply cow_stat. exact C3. }
      intros h X. injection X as <-. split; [exact HI4|]. split; [|exact PL4].
      destruct NEW4 as [(q0 & R0 & L0 & HI & _)|(STH & _)].
      + pose proof (cow_stat _ _ _ _ C3) as S3. unfold stat in S3. destruct (resolve true s3 (os_path output)) as [r3|]; [|discriminate].
        apply IO3 in S3. lia.
      + exact (OTH _ STH). }
  destruct OH as (e & c4 & hh & OH & EH & NF4 & EF & DI4 & NI4 & S4 & SEPH).
  rewrite (bind_ok _ _ _ _ _ OH). erewrite bind_ok by reflexivity. erewrite bind_ok by reflexivity. rewrite EH.
  set (hi := mkHandle (os_path input) i 0 []).
  set (req := mkEncReq (is_some hh) raw (mkHT V5 a StreamMode) (cp_hashing p)).
  set (w := mkWorld (handle_dev (disk c4) hi) (handle_dev (disk c4) ho) (opt_dev (disk c4) hh) (s_rng (disk c4)) (snd (c_a c4))).
  destruct (KDF (draw (w_rng w) 0 16)) as (key & HK).
  assert (EX : exists w', encrypt_execute (ce_E V) req w = (Ok tt, w')).
  { destruct hh as [h|].
    - destruct (file_round_trip_detached_v5 (ce_E V) req w key HE) as (w' & _ & _ & X & _); auto.
      + apply (SEPH h eq_refl).
      + cbn [w w_in handle_dev d_data hi h_ino]. rewrite DI4. exact SIZE.
      + eauto.
    - destruct (file_round_trip_v5 (ce_E V) req w key HE) as (w' & _ & X & _); auto.
      + cbn [w w_in handle_dev d_data hi h_ino]. rewrite DI4. exact SIZE.
      + eauto. }
  destruct EX as (w' & EX).
  assert (EFR : exists a5, encrypt_files V req hi ho hh (c_a c4) = (Ok tt, a5)).
  { unfold encrypt_files.
    assert (E1 : (same_file ho hi || same_opt ho hh || same_opt hi hh)%bool = false).
    { unfold same_file, same_opt. cbn [hi h_ino].
      replace (h_ino ho =? i) with false by (symmetry; apply Nat.eqb_neq; exact OI).
      destruct hh as [h|]; [|reflexivity]. destruct (SEPH h eq_refl) as (A & B & _).
      unfold same_file. rewrite orb_false_l. apply orb_false_iff. split; apply Nat.eqb_neq; [congruence|].
      change (h_ino hi) with i. congruence. }
    rewrite E1. unfold map_err, run_world. fold (disk c4). fold w. rewrite EX. eexists. reflexivity. }
  destruct EFR as (a5 & EFR).
  assert (OA : on_a (encrypt_files V req hi ho hh) c4 = (Ok tt, set_a a5 c4)).
  { rewrite on_a_run, EFR. reflexivity. }
  rewrite (bind_ok _ _ _ _ _ OA).
  destruct (encrypt_files_frame _ _ _ _ _ _ _ _ EFR) as (TR & _).
  assert (NF5 : no_faults (disk (set_a a5 c4))).
  { rewrite set_a_disk. destruct TR as (_ & _ & _ & _ & X & Y'). eapply no_faults_rest; [exact NF4| |]; assumption. }
  destruct (flush_opt e (set_a a5 c4)) as [o6 c6] eqn:F6.
  destruct (flush_opt_any _ _ _ _ F6) as (_ & _ & _ & _ & _ & _ & _ & C6). destruct (C6 NF5) as [DC6 OK6].
  rewrite (OK6 EF) in F6. rewrite (bind_ok _ _ _ _ _ F6).
  destruct (storage (flush_file (EFile ho)) c6) as [o7 c7] eqn:F7.
  destruct (storage_inv _ _ _ _ F7) as (r7 & s7 & FF & -> & ->).
  destruct (flush_file_any _ _ _ _ FF) as (_ & _ & _ & C7). rewrite DC6 in C7. destruct (C7 NF5) as [-> OK7].
  rewrite (OK7 ho eq_refl) in F7. cbn [omap] in F7. rewrite (bind_ok _ _ _ _ _ F7).
  destruct (cp_hash p); [|eexists; reflexivity].
  match goal with |- exists c1, hash_files V [output] ?x = _ => set (c8 := x) end.
  assert (D8 : disk c8 = disk (set_a a5 c4)) by (unfold c8; rewrite set_disk_disk; reflexivity).
  destruct (hash_files V [output] c8) as [o8 c9] eqn:HF.
  destruct (hash_files_any _ _ _ _ _ HF) as (_ & _ & _ & _ & _ & _ & _ & CH8).
  rewrite D8 in CH8. destruct (CH8 NF5) as [_ RES]. destruct (RES [h_ino ho]) as [-> _]; [|eauto].
  constructor; [|constructor]. rewrite set_a_disk. destruct TR as (TN & TC & _).
  change (fst (c_a c4)) with (disk c4) in *. unfold stat in *. rewrite TN, (resolve_nodes true (disk c4) (fst a5)) by congruence. exact S4.
Qed.

(** ** The commands *)

Lemma asked_hashing : forall V g p, params_of V CmdEncrypt g p ->
  forall raw, hashes (ce_E V) (kdf_asked g) raw -> forall salt, exists key, hash (ce_E V) (cp_hashing p) raw salt = Ok key.
Proof.
  intros V g p PO raw H salt. specialize (H salt).
  rewrite (po_hashing _ _ _ _ PO). unfold kdf_asked in H.
  assert (X : exists k, In (match g "argon"%string with [] => Blake3Balloon 5 | _ => Argon2id 3 end, k) kdf_table
      /\ kdf_run (ce_E V) k raw salt <> None).
  { destruct (g "argon"%string); eexists; (split; [|exact H]); cbn; auto 9. }
  destruct X as (k & IN & RUN).
  destruct (g "argon"%string) eqn:G; rewrite (proj1 (hash_table (ce_E V) _ raw salt) k IN);
    destruct (kdf_run (ce_E V) k raw salt); try contradiction; eauto.
Qed.

Lemma encrypt_works : forall V g c input output i k raw t,
  env_ok (ce_E V) -> no_faults (disk c) -> inodes_ok (disk c) ->
  given g "input" input -> given g "output" output ->
  stat (disk c) (os_path input) = Some (NFile i) ->
  (N.of_nat (List.length (s_data (disk c) i) / BLOCK_SIZE) <= counter_max (ce_E V))%N ->
  (forall x, In x (write_targets g output) -> stat (disk c) x <> Some (NFile i)) ->
  can_write g (disk c) (os_path output) ->
  (forall h, given g "header" h -> can_write g (disk c) (os_path h) /\ different (disk c) (os_path output) (os_path h)) ->
  key_source V CmdEncrypt g k -> yields V c k Validate raw t -> hashes (ce_E V) (kdf_asked g) raw ->
  exists c', run_command V CmdEncrypt g c = (Ok tt, c').
Proof.
  intros V g c input output i k raw t HE NF IO GI GO ST SIZE SEP CO CH KS Y HK.
  assert (NE : input <> output).
  { intros ->. eapply SEP; [left; reflexivity|exact ST]. }
  destruct (run_command V CmdEncrypt g c) as [o c'] eqn:R. exists c'.
  destruct (encrypt_run _ _ _ _ _ _ _ GI GO NE R) as (p & n & o1 & c1 & PO & EM & RES).
  assert (K : cp_key p = k) by (eapply key_source_unique; [apply PO|exact KS]). subst k.
  destruct (encrypt_forward V g p input output (algorithm_asked g) (printed n c) i raw t) as (c2 & X);
    try assumption; try (apply yields_printed; exact Y).
  { eapply asked_hashing; eauto. }
  rewrite EM in X. injection X as -> ->.
  destruct RES as [(NO & _)|(_ & SE)]; [contradiction|].
  destruct (encrypt_main_any _ _ _ _ _ _ _ _ EM) as (W & _ & OK).
  rewrite (header_targets_of _ _ _ _ _ PO), printed_disk in W.
  pose proof (ow_stat_kept _ _ _ _ _ W ST) as ST1.
  destruct (OK eq_refl) as (i' & raw' & hi & ho & hh & a1 & a2 & EN).
  destruct (en_calm _ _ _ _ _ _ _ _ _ _ _ _ _ _ EN NF) as (NF1 & _).
  destruct (secure_erase_file _ _ _ _ _ _ _ _ SE ST1) as [(_ & _ & X)|(s1 & oe & D & C & ER & ->)]; [contradiction|].
  rewrite (C NF1) in ER. destruct (erase_holds _ _ _ _ _ ER) as (_ & _ & _ & CALM & _).
  assert (oe = Ok tt) by (eapply CALM; eauto). subst oe. reflexivity.
Qed.

(** Files of every version, by path. *)
Lemma decrypt_works : forall V g c input output i h aad d mk pt k raw t,
  env_ok (ce_E V) -> ce_debug V = false -> no_faults (disk c) -> inodes_ok (disk c) ->
  given g "input" input -> given g "output" output -> not_given g "header" ->
  stat (disk c) (os_path input) = Some (NFile i) ->
  deserialize (mkDev (s_data (disk c) i) 0 [] []) = (Ok (h, aad), d) ->
  unlocks (ce_E V) raw h mk -> body_opens (ce_E V) h aad mk (rest d) pt ->
  free_name (disk c) (os_path output) ->
  key_source V CmdDecrypt g k -> yields V c k Direct raw t ->
  exists c' q j, run_command V CmdDecrypt g c = (Ok tt, c')
    /\ resolve false (disk c) (os_path output) = Some q /\ at_place (disk c') q = Some (SFile j pt).
Proof.
  intros V g c input output i h aad d mk pt k raw t HE DB NF IO GI GO GH ST DES UN BO (q & R & L) KS Y.
  assert (RC : recovers (ce_E V) raw (s_data (disk c) i) None pt).
  { apply recovers_of. intros w PI PO _ POS LOG DAT _ _ _. cbn [is_some].
    eapply decrypt_complete; eauto.
    destruct (w_in w) as [dt ps pl lg]. cbn in *. subst. exact DES. }
  destruct (RC V g c input output i q k t) as (c' & j & RUN & AT); auto.
  exists c', q, j. auto.
Qed.

(** With the header in a file of its own. *)
Lemma decrypt_works_detached : forall V g c input output header i ih h aad d mk body pt k raw t,
  env_ok (ce_E V) -> ce_debug V = false -> no_faults (disk c) -> inodes_ok (disk c) ->
  given g "input" input -> given g "output" output -> given g "header" header ->
  stat (disk c) (os_path input) = Some (NFile i) -> stat (disk c) (os_path header) = Some (NFile ih) ->
  deserialize (mkDev (s_data (disk c) ih) 0 [] []) = (Ok (h, aad), d) ->
  s_data (disk c) i = zeros (get_size (ht_version (h_type h))) ++ body ->
  unlocks (ce_E V) raw h mk -> body_opens (ce_E V) h aad mk body pt ->
  free_name (disk c) (os_path output) ->
  key_source V CmdDecrypt g k -> yields V c k Direct raw t ->
  exists c' q j, run_command V CmdDecrypt g c = (Ok tt, c')
    /\ resolve false (disk c) (os_path output) = Some q /\ at_place (disk c') q = Some (SFile j pt).
Proof.
  intros V g c input output header i ih h aad d mk body pt k raw t HE DB NF IO GI GO GH ST STH DES BODY UN BO (q & R & L) KS Y.
  assert (RC : recovers (ce_E V) raw (s_data (disk c) i) (Some (s_data (disk c) ih)) pt).
  { apply recovers_of. intros w PI PO PH POS LOG DAT HD _ _. cbn [is_some].
    destruct (HD _ eq_refl) as [HP HDT].
    apply deserialize_spec in DES as (_ & _ & _ & DES). cbv zeta in DES. destruct DES as (A1 & A2 & A3 & _).
    cbn [d_pos d_data] in A1, A2, A3.
    assert (DES' : exists d', deserialize (w_hdr w) = (Ok (h, aad), d')).
    { eexists. eapply (deserialize_ok (w_hdr w) (ht_version (h_type h))); try eassumption; now rewrite HP, HDT. }
    destruct DES' as (d' & DES').
    eapply decrypt_complete_detached; eauto.
    left. congruence. }
  destruct (RC V g c input output i q k t) as (c' & j & RUN & AT); auto.
  { exists header, ih. auto. }
  exists c', q, j. auto.
Qed.

(** Files of versions 1 to 3, described byte by byte. *)
Lemma old_files_by_path : forall V g c input output i v a m salt nonce u1 u2 hdr body key pt k raw t,
  env_ok (ce_E V) -> ce_debug V = false -> no_faults (disk c) -> inodes_ok (disk c) ->
  given g "input" input -> given g "output" output -> not_given g "header" ->
  stat (disk c) (os_path input) = Some (NFile i) -> s_data (disk c) i = hdr ++ body ->
  old_header v a m salt nonce u1 u2 hdr -> old_key (ce_E V) v raw salt = Some key ->
  opens (ce_E V) a m key nonce (old_aad v hdr) body pt ->
  free_name (disk c) (os_path output) ->
  key_source V CmdDecrypt g k -> yields V c k Direct raw t ->
  exists c' q j, run_command V CmdDecrypt g c = (Ok tt, c')
    /\ resolve false (disk c) (os_path output) = Some q /\ at_place (disk c') q = Some (SFile j pt).
Proof.
  intros V g c input output i v a m salt nonce u1 u2 hdr body key pt k raw t
    HE DB NF IO GI GO GH ST DT OH OK OP FR KS Y.
  destruct (old_parses v a m salt nonce u1 u2 hdr body (mkDev (s_data (disk c) i) 0 [] []) OH eq_refl DT)
    as (hv & d1 & D & R & EV).
  eapply decrypt_works with (mk := key); eauto.
  - unfold unlocks. cbn [h_type ht_version h_salt]. subst hv. unfold hash.
    destruct v; (exists salt; split; [reflexivity|]); unfold old_key in OK; cbn; rewrite OK; reflexivity.
  - rewrite R. exact OP.
Qed.
