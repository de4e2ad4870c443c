(** A file that is encrypted while calls fail. *)
From Coq Require Import List Arith NArith ZArith Ascii String Bool Lia.
From Verif Require Import Bytes Outcome IO Primitives Crypto Header Stream KeyModel EncDec.
From Verif Require Import Overwrite Hash FS Erase Archive Cli.
From Verif Require Import BytesFacts HeaderSpec HeaderFacts IOSpec IOFacts FileSpec FileFacts FileProofs.
From Verif Require Import FSSpec FSFacts ArchiveSpec EraseProofs UnpackProofs PackProofs RestorePack.
From Verif Require Import RestoreProofs CliSpec CliKeys CliRuns CliCommands CliProofs FaultsSpec FaultsRuns.
Import ListNotations.
Local Open Scope nat_scope.
Local Open Scope list_scope.

(** Erasing a file, whatever fails, leaves the others. *)
Lemma erase_spares : forall V input n force c1 o c' i q j,
  secure_erase V input n force c1 = (o, c') -> stat (disk c1) (os_path input) = Some (NFile i) ->
  lookup (s_nodes (disk c1)) q = Some (NFile j) -> j <> i ->
  at_place (disk c') q = Some (SFile j (s_data (disk c1) j)).
Proof.
  intros V input n force c1 o c' i q j SE ST1 STJ' JI.
  assert (BEFORE : at_place (disk c1) q = Some (SFile j (s_data (disk c1) j))).
  { unfold at_place. rewrite STJ'. reflexivity. }
  destruct (secure_erase_file _ _ _ _ _ _ _ _ SE ST1) as [(_ & SD & _)|(s1 & oe & D & _ & ER & _)].
  - rewrite <- BEFORE. destruct SD as (D1 & D2 & _). apply at_place_ext; rewrite ?D1, ?D2; auto.
  - assert (B1 : at_place s1 q = Some (SFile j (s_data (disk c1) j))).
    { rewrite <- BEFORE. destruct D as (D1 & D2 & _). apply at_place_ext; rewrite ?D1, ?D2; auto. }
    assert (STS : stat s1 (os_path input) = Some (NFile i)) by (rewrite (stat_disk _ _ _ D); exact ST1).
    destruct (erase_holds _ _ _ _ _ ER) as (_ & _ & PL & _ & _).
    pose proof (erase_any _ _ _ _ _ ER) as EA.
    destruct EA as [[_ [DX _]]|[i2 [q2 [ST2 [RF2 _]]]]].
    { destruct DX as [D1 [D2 _]]. rewrite <- B1. apply at_place_ext; rewrite ?D1, ?D2; auto. }
    destruct (PL i q2 STS RF2 q) as [X|[(X & _)|(-> & _)]].
    + congruence.
    + exfalso. unfold at_place in B1. rewrite X in B1. injection B1 as E _. congruence.
    + exfalso. apply JI.
      assert (LJ : lookup (s_nodes s1) q2 = Some (NFile j)).
      { destruct D as (D1 & _). rewrite D1. exact STJ'. }
      assert (RT' : resolve true s1 (os_path input) = Some q2).
      { eapply resolve_same; [exact RF2|exact LJ|discriminate]. }
      unfold stat in STS. rewrite RT', LJ in STS. congruence.
Qed.

Lemma encrypt_faults : forall V g c o c' input output i,
  env_ok (ce_E V) -> all_or_nothing (disk c) -> inodes_ok (disk c) ->
  given g "input" input -> given g "output" output ->
  stat (disk c) (os_path input) = Some (NFile i) ->
  (forall t, In t (write_targets g output) -> stat (disk c) t <> Some (NFile i)) ->
  (forall h, given g "header" h -> different (disk c) (os_path output) (os_path h)) ->
  run_command V CmdEncrypt g c = (o, c') ->
  let kept := exists raw, key_taken V CmdEncrypt g Validate c output raw
    /\ kept_encrypted V g output (disk c) (disk c') raw (s_data (disk c) i) in
  (o = Ok tt -> kept)
  /\ (kept \/ stat (disk c') (os_path input) = Some (NFile i) /\ s_data (disk c') i = s_data (disk c) i).
Proof.
  intros V g c o c' input output i HE AN IO GI GO ST SEP DIF H kept.
  assert (NI : i < s_next (disk c)).
  { unfold stat in ST. destruct (resolve true (disk c) (os_path input)); [|discriminate]. exact (IO _ _ ST). }
  assert (NE : input <> output).
  { intros ->. eapply SEP; [left; reflexivity|exact ST]. }
  destruct (encrypt_run _ _ _ _ _ _ _ GI GO NE H) as (p & n & o1 & c1 & PO & EM & RES).
  destruct (encrypt_main_any _ _ _ _ _ _ _ _ EM) as (W & _ & _).
  rewrite (header_targets_of _ _ _ _ _ PO), printed_disk in W.
  pose proof (ow_stat_kept _ _ _ _ _ W ST) as ST1.
  pose proof (ow_untouched _ _ _ _ W NI SEP) as [DI _].
  destruct RES as [(NO & -> & ->)|(-> & SE)].
  { split; [contradiction|]. right. auto. }
  destruct (encrypt_main_an _ _ _ _ _ _ _ EM) as (i' & raw & hi & ho & hh & a1 & a2 & EN & PLANS).
  rewrite printed_disk in PLANS. destruct (PLANS AN) as (PI & PO' & PH). clear PLANS.
  assert (i' = i).
  { pose proof (en_input _ _ _ _ _ _ _ _ _ _ _ _ _ _ EN) as X. rewrite printed_disk, ST in X. congruence. }
  subst i'.
  cut kept. { intros K. split; [intros _; exact K|left; exact K]. }
  (* places other than the input's are kept *)
  assert (KEPT : forall t, In t (write_targets g output) -> forall j, stat (disk c1) t = Some (NFile j) ->
     exists q, resolve true (disk c) t = Some q /\ at_place (disk c') q = Some (SFile j (s_data (disk c1) j))).
  { intros t IT j STJ.
    assert (JI : j <> i).
    { intros ->. destruct (ow_stat_new _ _ _ _ _ W STJ) as [X|(_ & j & X & L)]; [exact (SEP t IT X)|].
      injection X as <-. lia. }
    pose proof STJ as STJ'. unfold stat in STJ'. destruct (resolve true (disk c1) t) as [q|] eqn:RT; [|discriminate].
    exists q. rewrite <- (ow_resolve true _ _ _ t W). split; [exact RT|].
    eapply erase_spares; eauto. }
  clear SE.
  destruct (en_ho _ _ _ _ _ _ _ _ _ _ _ _ _ _ EN) as [STO POO].
  destruct (en_hi _ _ _ _ _ _ _ _ _ _ _ _ _ _ EN) as [HII PII].
  assert (OI : h_ino ho <> i).
  { intros X. rewrite X in STO. destruct (ow_stat_new _ _ _ _ _ W STO) as [Y|(_ & j & Y & L)].
    - apply (SEP (os_path output)); [left; reflexivity|exact Y].
    - injection Y as <-. lia. }
  assert (HP : forall hp, cp_header p = Some hp -> given g "header" hp).
  { intros hp E. rewrite (po_header _ _ _ _ PO) in E. destruct (g "header"%string) as [|x r] eqn:G; [discriminate|].
    injection E as ->. exists r. exact G. }
  assert (HI : forall h, hh = Some h -> h_ino h <> i /\ h_ino ho <> h_ino h).
  { intros h E. pose proof (en_hh _ _ _ _ _ _ _ _ _ _ _ _ _ _ EN) as EH.
    destruct (cp_header p) as [hp|] eqn:CH; [|congruence]. destruct EH as (h' & E' & STH & _).
    assert (h' = h) by congruence. subst h'. split.
    - intros X. rewrite X in STH. destruct (ow_stat_new _ _ _ _ _ W STH) as [Y|(_ & j & Y & L)].
      + apply (SEP (os_path hp)); [|exact Y]. right. destruct (HP hp eq_refl) as [r G]. rewrite G. left. reflexivity.
      + injection Y as <-. lia.
    - eapply (en_apart _ _ _ _ _ _ _ _ _ _ _ _ _ _ EN); eauto. }
  (* the library's run *)
  pose proof (en_run _ _ _ _ _ _ _ _ _ _ _ _ _ _ EN) as ER'. unfold encrypt_files in ER'.
  assert (AL : (same_file ho hi || same_opt ho hh || same_opt hi hh)%bool = false).
  { unfold same_file, same_opt. rewrite HII. apply Nat.eqb_neq in OI. rewrite OI. cbn [orb].
    destruct hh as [h|]; [|reflexivity]. destruct (HI h eq_refl) as [A B].
    unfold same_file. rewrite HII. apply Nat.eqb_neq in B. rewrite B. cbn [orb]. apply Nat.eqb_neq. auto. }
  rewrite AL in ER'. clear AL. unfold map_err, run_world in ER'.
  set (req := mkEncReq (is_some hh) raw (mkHT V5 (algorithm_asked g) StreamMode) (cp_hashing p)) in *.
  set (w0 := mkWorld (handle_dev (fst a1) hi) (handle_dev (fst a1) ho) (opt_dev (fst a1) hh) (s_rng (fst a1)) (snd a1)) in *.
  destruct (encrypt_execute (ce_E V) req w0) as [ox w1] eqn:EX.
  destruct ox as [[]|x| |]; try discriminate ER'. injection ER' as <-.
  pose proof (en_empty _ _ _ _ _ _ _ _ _ _ _ _ _ _ EN) as EE.
  pose proof (en_before _ _ _ _ _ _ _ _ _ _ _ _ _ _ EN) as WB.
  rewrite (header_targets_of _ _ _ _ _ PO), printed_disk in WB.
  pose proof (ow_untouched _ _ _ _ WB NI SEP) as [DIB _].
  destruct (en_after _ _ _ _ _ _ _ _ _ _ _ _ _ _ EN) as (_ & DA & _). cbn [fst] in DA.
  exists raw. split.
  { destruct (en_key _ _ _ _ _ _ _ _ _ _ _ _ _ _ EN) as (c0 & t & CA & CT & CS & Y).
    exists (cp_key p), c0, t. split; [apply PO|]. split; [exact CA|]. split; [exact CT|]. split; [auto|exact Y]. }
  destruct (KEPT (os_path output) (or_introl eq_refl) _ STO) as (qo & RO & PLO).
  assert (WIN : d_data (w_in w0) = s_data (disk c) i).
  { cbn [w0 w_in handle_dev d_data]. rewrite HII. exact DIB. }
  pose proof (en_hh _ _ _ _ _ _ _ _ _ _ _ _ _ _ EN) as EH.
  rewrite (po_header _ _ _ _ PO) in EH.
  assert (DO : s_data (disk c1) (h_ino ho) = d_data (w_out w1)).
  { rewrite DA. cbn [with_rng s_data]. destruct hh as [h|]; cbn [put_opt].
    + destruct (HI h eq_refl) as [HI1 HI2]. unfold put_handle at 1. cbn [with_data s_data].
      rewrite set_data_neq by exact HI2. unfold put_handle at 1. cbn [with_data s_data].
      unfold set_data. rewrite Nat.eqb_refl. reflexivity.
    + unfold put_handle at 1. cbn [with_data s_data]. unfold set_data. rewrite Nat.eqb_refl. reflexivity. }
  rewrite DO in PLO.
  assert (BP : 0 < BLOCK_SIZE) by (apply Nat.ltb_lt; reflexivity).
  destruct (made_back (ce_E V) BLOCK_SIZE req w0 w1 HE BP eq_refl) as (h & b & aad & ct & cs & WF & HM & SZ & LB & CA & UN & SB & OUT); auto.
  { intros DT. destruct (g "header"%string) as [|hp r] eqn:GH; cbn [hd_error] in EH.
    - subst hh. discriminate DT.
    - destruct EH as (h & -> & STH & PHH & EHH). split; [apply (PH h eq_refl)|exact EHH]. }
  rewrite WIN in SB.
  exists qo, (h_ino ho), (d_data (w_out w1)). split; [exact RO|]. split; [exact PLO|].
  destruct (g "header"%string) as [|hp r] eqn:GH; cbn [hd_error] in EH.
  - subst hh. cbn [is_some er_detached] in OUT.
    apply recovers_of. intros w A1 A2 A3 A4 _ A5 A6 A7 A8.
    eapply (decrypt_embedded_honest (ce_E V) BLOCK_SIZE raw h b aad); eauto.
    unfold rest. rewrite A4, A5. exact OUT.
  - destruct EH as (hx & -> & STH & PHH & EHH). cbn [is_some er_detached] in OUT. destruct OUT as [OH OB].
    assert (IT : In (os_path hp) (write_targets g output)).
    { right. rewrite GH. left. reflexivity. }
    destruct (KEPT _ IT _ STH) as (qh & RH & PLH).
    assert (DH : s_data (disk c1) (h_ino hx) = d_data (w_hdr w1)).
    { rewrite DA. cbn [with_rng s_data put_opt]. unfold put_handle at 1. cbn [with_data s_data].
      unfold set_data. rewrite Nat.eqb_refl. reflexivity. }
    rewrite DH in PLH.
    exists qh, (h_ino hx), (d_data (w_hdr w1)). split; [exact RH|]. split; [exact PLH|].
    intros AZ. apply recovers_of. intros w A1 A2 A3 A4 _ A5 A6 A7 A8.
    destruct (A6 _ eq_refl) as [P6 D6].
    eapply (decrypt_detached_honest (ce_E V) BLOCK_SIZE raw h b aad); eauto.
    + exists []. rewrite P6, D6, OH, app_nil_r. reflexivity.
    + right. split; [rewrite A5; exact OB|]. rewrite LB. rewrite OB in AZ.
      destruct (all_zero (firstn 416 ct)) eqn:Z; [|reflexivity]. apply all_zero_repeat in Z. contradiction.
Qed.
