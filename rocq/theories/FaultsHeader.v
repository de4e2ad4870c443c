(** A file that is decrypted with its header in a file of its own, while calls fail. *)
From Coq Require Import List Arith NArith ZArith Ascii String Bool Lia.
From Verif Require Import Bytes Outcome IO IOFacts Primitives Crypto Header Stream KeyModel EncDec.
From Verif Require Import Overwrite Hash FS Erase Archive Cli.
From Verif Require Import BytesFacts HeaderSpec HeaderFacts IOSpec StreamSpec StreamFacts StreamProofs FileSpec FileFacts FileProofs KeyFacts
  DecryptSpec DecryptProofs FSSpec FSFacts EraseProofs ArchiveSpec ArchiveProofs UnpackProofs PackProofs RestorePack RestoreProofs
  ToolSpec ToolProofs CliSpec CliKeys CliRuns CliCommands CliProofs Fixtures FileCases FaultsSpec FaultsRuns FaultsProofs FaultsDecrypt.
Import ListNotations.
Local Open Scope nat_scope.
Local Open Scope list_scope.

(** ** The library *)

Lemma ended_sound : forall E pw h aad v1 v', env_ok E -> header_shape h ->
  dec_ended E BLOCK_SIZE pw h aad v1 (Ok tt) v' ->
  exists mk ct p, unlocks E pw h mk /\ body_opens E h aad mk ct p /\ wrote (w_out v1) (w_out v') p
    /\ (ht_mode (h_type h) = MemoryMode \/ no_short (d_plan (w_in v1)) -> ct = rest (w_in v1)).
Proof.
  intros E pw h aad v1 v' HE SH EN.
  destruct EN as (_ & _ & _ & _ & written & kc & bc & _ & WR & _ & WE & NE & CA).
  specialize (WE (or_introl eq_refl)). specialize (NE eq_refl).
  destruct CA as [(_ & X & _)|(mk & U & LM & _ & BC)]; [contradiction|].
  unfold body_calls in BC. cbv zeta in BC.
  destruct (ht_mode (h_type h)) eqn:Hm.
  - destruct BC as [X|(m & A & B)]; [contradiction|]. subst bc. cbn [map List.concat c_msg] in WE.
    rewrite app_nil_r in WE. subst written.
    exists mk, (rest (w_in v1)), m. parts; auto.
    unfold body_opens, opens. rewrite Hm. exact A.
  - destruct BC as (bl & last & R & LB & X). specialize (X eq_refl). destruct X as (lb & -> & C & NS & NS2).
    exists mk, (consumed (w_in v1) (w_in v')), written.
    parts; auto.
    + unfold body_opens, opens. rewrite Hm. rewrite C, WE.
      pose proof (counter_31 _ HE) as H31.
      destruct SH as (Hns & _). unfold nonce_sized in Hns. rewrite Hm in Hns.
      split.
      * eapply dec_run_is_plaintext; [exact H31| |exact R|exact LB|exact NS2].
        unfold stream_ok. auto.
      * rewrite blocks_count by (auto; lia).
        apply dec_run_counter in R; cbn [s_pos] in *; lia.
    + intros [Y|Y]; [congruence|]. rewrite (NS Y). exact C.
Qed.

(** The room for a header is passed over, or not, as it would be without failures. *)
Lemma skip_any : forall size d d2, skip_empty_header size d = (Ok tt, d2) -> d_pos d = 0 ->
  plan_suffix d d2 /\ forall e, d_plan e = [] -> d_pos e = 0 -> d_data e = d_data d ->
    exists e2, skip_empty_header size e = (Ok tt, e2) /\ d_plan e2 = [] /\ rest e2 = rest d2.
Proof.
  intros size d d2 H P0. unfold skip_empty_header in H.
  apply bind_inv in H as [(b & d4 & H4 & H3)|[(e & _ & Hx)|[(_ & Hx)|(_ & Hx)]]]; try discriminate.
  assert (RD : plan_suffix d d4 /\ d_data d4 = d_data d /\ d_pos d4 = Nat.min size (List.length (d_data d))
     /\ all_zero b = all_zero (firstn size (d_data d))).
  { unfold or_else in H4. destruct (dev_read_exact size d) as [o4 d5] eqn:H5.
    assert (PS : plan_suffix d d5) by (eapply read_exact_loop_suffix; exact H5).
    apply dev_read_exact_spec in H5 as (A & _ & _ & B). rewrite P0 in B. cbn [skipn] in B.
    destruct o4 as [x|[e x]| |]; try contradiction.
    - injection H4 as -> ->. destruct B as (-> & L & P). rewrite P. split; [exact PS|]. split; [exact A|].
      split; [lia|reflexivity].
    - destruct B as (k & K1 & -> & K3 & K4 & K5 & _). cbn [fst snd] in H4.
      destruct e; try discriminate H4. injection H4 as <- <-. specialize (K5 eq_refl).
      split; [exact PS|]. split; [exact A|]. split; [lia|].
      rewrite firstn_all2 by lia. rewrite firstn_all2 by lia.
      unfold all_zero. rewrite forallb_app. rewrite Bool.andb_comm.
      replace (forallb _ (zeros _)) with true; [reflexivity|]. symmetry. apply all_zero_zeros. }
  destruct RD as (PS & D4 & P4 & AZ).
  assert (D2 : plan_suffix d d2 /\ d_data d2 = d_data d
     /\ d_pos d2 = if all_zero (firstn size (d_data d)) then Nat.min size (List.length (d_data d)) else 0).
  { rewrite <- AZ. destruct (all_zero b); cbn [negb] in H3.
    - unfold ret in H3. injection H3 as <-. auto.
    - apply map_err_inv in H3 as [(x3 & H3 & _)|[(e & _ & X3)|[(_ & X3)|(_ & X3)]]]; try discriminate.
      apply dev_seek_start_spec in H3 as (A & B & _ & C). split; [eapply plan_suffix_trans; [exact PS|apply plan_step_suffix, A]|].
      split; [congruence|exact C]. }
  destruct D2 as (PS2 & DD & PP). split; [exact PS2|].
  intros e EP E0 ED. rewrite (skip_empty_header_run size e EP E0). eexists. split; [reflexivity|].
  unfold rest. rewrite DD, PP, ED.
  destruct (all_zero (firstn size (d_data d))); cbn [set_pos d_plan d_pos d_data]; rewrite ED; auto.
Qed.

Lemma decrypt_same_detached : forall E pw v v', env_ok E ->
  decrypt_execute E true pw v = (Ok tt, v') -> no_short (d_plan (w_in v)) -> d_pos (w_in v) = 0 -> d_pos (w_hdr v) = 0 ->
  exists p, wrote (w_out v) (w_out v') p
    /\ ok_out (decrypt_execute E true pw (with_header (d_data (w_in v)) (d_data (w_hdr v)))) = Some p.
Proof.
  intros E pw v v' HE H NS P0 PH. unfold decrypt_execute in H. rewrite decrypt_execute_eq in H.
  apply bind_inv in H as [((h & aad) & v1 & H1 & H)|[(e & _ & Hx)|[(_ & Hx)|(_ & Hx)]]]; try discriminate.
  unfold dec_header in H1.
  apply bind_inv in H1 as [((h' & aad') & v2 & H2 & H1)|[(e & _ & Hx)|[(_ & Hx)|(_ & Hx)]]]; try discriminate.
  apply map_err_inv in H2 as [(x & H2 & X)|[(e & _ & X)|[(_ & X)|(_ & X)]]]; try discriminate.
  assert (x = (h', aad')) by congruence. subst x.
  apply zoom_inv in H2 as (d1 & H2 & ->).
  apply bind_inv in H1 as [([] & v3 & H3 & H1)|[(e & _ & Hx)|[(_ & Hx)|(_ & Hx)]]]; try discriminate.
  unfold ret in H1. injection H1 as -> -> ->.
  apply zoom_inv in H3 as (d2 & H3 & ->). cbn [w_in w_out w_hdr w_rng w_tr fst] in *.
  pose proof (deserialize_shape _ _ _ _ H2) as SH.
  destruct (skip_any _ _ _ H3 P0) as (PS & SK).
  apply dec_body_spec in H; [|exact HE|exact SH].
  destruct (ended_sound _ _ _ _ _ _ HE SH H) as (mk & ct & p & UN & BO & WR & FULL). cbn [w_in w_out] in *.
  rewrite (FULL (or_intror (plan_suffix_no_short _ _ PS NS))) in BO.
  exists p. split; [exact WR|].
  pose proof (deserialize_spec _ _ _ H2) as (_ & _ & _ & SP). cbv zeta in SP. destruct SP as (S1 & S2 & S3 & S4).
  rewrite PH in S1, S2, S3, S4.
  set (u := with_header (d_data (w_in v)) (d_data (w_hdr v))).
  assert (DU : deserialize (w_hdr u) = (Ok (h, aad), set_pos (0 + get_size (ht_version (h_type h))) (w_hdr u))).
  { eapply deserialize_ok; [reflexivity|reflexivity|exact S1|exact S2|exact S3]. }
  destruct (SK (w_in u) eq_refl eq_refl eq_refl) as (e2 & K1 & K2 & K3).
  destruct (decrypt_detached_from E pw u h aad _ e2 mk p HE K2 eq_refl DU K1 UN) as (u' & RU & WU).
  { rewrite K3. exact BO. }
  rewrite RU. cbn [ok_out]. f_equal. destruct WU as (WU & _). rewrite WU. apply write_at_empty.
Qed.

(** ** The command *)

Lemma decrypt_header_faults : forall V g c o c' input output header i ih,
  env_ok (ce_E V) -> ce_debug V = false -> all_or_nothing (disk c) -> inodes_ok (disk c) ->
  given g "input" input -> given g "output" output -> given g "header" header ->
  stat (disk c) (os_path input) = Some (NFile i) -> stat (disk c) (os_path header) = Some (NFile ih) ->
  stat (disk c) (os_path output) <> Some (NFile i) -> stat (disk c) (os_path output) <> Some (NFile ih) ->
  run_command V CmdDecrypt g c = (o, c') ->
  let whole := exists raw pt q j, key_taken V CmdDecrypt g Direct c output raw
    /\ ok_out (decrypt_execute (ce_E V) true raw (with_header (s_data (disk c) i) (s_data (disk c) ih))) = Some pt
    /\ resolve true (disk c) (os_path output) = Some q /\ at_place (disk c') q = Some (SFile j pt) in
  (o = Ok tt -> whole)
  /\ (whole \/ stat (disk c') (os_path input) = Some (NFile i) /\ s_data (disk c') i = s_data (disk c) i).
Proof.
  intros V g c o c' input output header i ih HE DB AN IO GI GO GH ST STH SEP SEPH H whole.
  assert (LT : forall p k, stat (disk c) p = Some (NFile k) -> k < s_next (disk c)).
  { intros q k X. unfold stat in X. destruct (resolve true (disk c) q); [|discriminate]. exact (IO _ _ X). }
  pose proof (LT _ _ ST) as NI. pose proof (LT _ _ STH) as NH. clear LT.
  assert (NE : input <> output) by (intros ->; contradiction).
  destruct (decrypt_run _ _ _ _ _ _ _ DB GI GO NE H) as (p & n & o1 & c1 & PO & EM & RES).
  destruct (decrypt_main_any _ _ _ _ _ _ _ EM) as (W & _ & _). rewrite printed_disk in W.
  assert (SEP' : forall t, In t [os_path output] -> stat (disk c) t <> Some (NFile i)).
  { intros t [<-|[]]. exact SEP. }
  assert (SEPH' : forall t, In t [os_path output] -> stat (disk c) t <> Some (NFile ih)).
  { intros t [<-|[]]. exact SEPH. }
  pose proof (ow_stat_kept _ _ _ _ _ W ST) as ST1.
  pose proof (ow_untouched _ _ _ _ W NI SEP') as [DI _].
  destruct RES as [(NO & -> & ->)|(-> & SE)].
  { split; [contradiction|]. right. auto. }
  destruct (decrypt_main_an _ _ _ _ _ _ EM) as (i' & raw & hi & ho & hh & a1 & a2 & EN & PLANS & HS).
  rewrite printed_disk in PLANS, HS. specialize (PLANS AN).
  assert (i' = i).
  { pose proof (de_input _ _ _ _ _ _ _ _ _ _ _ _ _ EN) as X. rewrite printed_disk, ST in X. congruence. }
  subst i'.
  cut whole. { intros K. split; [intros _; exact K|left; exact K]. }
  destruct (de_ho _ _ _ _ _ _ _ _ _ _ _ _ _ EN) as [STO POO].
  destruct (de_hi _ _ _ _ _ _ _ _ _ _ _ _ _ EN) as [HII PII].
  assert (OI : forall k, k < s_next (disk c) -> stat (disk c) (os_path output) <> Some (NFile k) -> h_ino ho <> k).
  { intros k NK SK X. rewrite X in STO. destruct (ow_stat_new _ _ _ _ _ W STO) as [Y|(_ & j & Y & L)].
    - exact (SK Y).
    - injection Y as <-. lia. }
  pose proof (OI _ NH SEPH) as OH. specialize (OI _ NI SEP).
  pose proof (de_hh _ _ _ _ _ _ _ _ _ _ _ _ _ EN) as EH. rewrite (po_header _ _ _ _ PO) in EH, HS.
  destruct GH as [l GH]. rewrite GH in EH, HS. cbn [hd_error] in EH, HS. rewrite printed_disk in EH.
  destruct EH as [->|(h & -> & PH & EH)]; [exfalso; exact (HS header ih eq_refl STH eq_refl)|].
  rewrite STH in EH. injection EH as EH.
  pose proof (de_run _ _ _ _ _ _ _ _ _ _ _ _ _ EN) as ER'. unfold decrypt_files in ER'.
  assert (AL : (same_file ho hi || same_opt ho (Some h))%bool = false).
  { unfold same_opt, same_file. rewrite HII, <- EH. apply Nat.eqb_neq in OI, OH. rewrite OI, OH. reflexivity. }
  rewrite AL in ER'. clear AL. unfold map_err, run_world in ER'. cbn [is_some] in ER'.
  set (w0 := mkWorld (handle_dev (fst a1) hi) (handle_dev (fst a1) ho) (opt_dev (fst a1) (Some h)) (s_rng (fst a1)) (snd a1)) in *.
  destruct (decrypt_execute (ce_E V) true raw w0) as [ox w1] eqn:EX.
  destruct ox as [[]|x| |]; try discriminate ER'. injection ER' as <-.
  pose proof (de_empty _ _ _ _ _ _ _ _ _ _ _ _ _ EN) as EE.
  pose proof (de_before _ _ _ _ _ _ _ _ _ _ _ _ _ EN) as WB. rewrite printed_disk in WB.
  pose proof (ow_untouched _ _ _ _ WB NI SEP') as [DIB _].
  pose proof (ow_untouched _ _ _ _ WB NH SEPH') as [DHB _].
  destruct (de_after _ _ _ _ _ _ _ _ _ _ _ _ _ EN) as (_ & DA & _). cbn [fst] in DA.
  destruct (decrypt_same_detached (ce_E V) raw w0 w1 HE EX PLANS PII PH) as (pt & WR & OKO).
  assert (WIN : d_data (w_in w0) = s_data (disk c) i).
  { cbn [w0 w_in handle_dev d_data]. rewrite HII. exact DIB. }
  assert (WHD : d_data (w_hdr w0) = s_data (disk c) ih).
  { cbn [w0 w_hdr opt_dev handle_dev d_data]. rewrite <- EH. exact DHB. }
  rewrite WIN, WHD in OKO.
  assert (DO : s_data (disk c1) (h_ino ho) = pt).
  { rewrite DA. cbn [with_rng s_data put_opt]. unfold put_handle at 1. cbn [with_data s_data].
    unfold set_data at 1. rewrite <- EH. apply Nat.eqb_neq in OH. rewrite OH.
    unfold put_handle at 1. cbn [with_data s_data].
    unfold set_data. rewrite Nat.eqb_refl. destruct WR as (WR & _). rewrite WR.
    cbn [w0 w_out handle_dev d_data d_pos]. rewrite EE, POO. apply write_at_empty. }
  pose proof STO as STO'. unfold stat in STO'. destruct (resolve true (disk c1) (os_path output)) as [q|] eqn:RT; [|discriminate].
  exists raw, pt, q, (h_ino ho). split.
  { destruct (de_key _ _ _ _ _ _ _ _ _ _ _ _ _ EN) as (c0 & t & CA & CT & CS & Y).
    exists (cp_key p), c0, t. split; [apply PO|]. split; [exact CA|]. split; [exact CT|]. split; [auto|exact Y]. }
  split; [exact OKO|]. rewrite <- (ow_resolve true _ _ _ (os_path output) W). split; [exact RT|].
  rewrite <- DO. eapply erase_spares; eauto.
Qed.
