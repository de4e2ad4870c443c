(** A file that is decrypted while calls fail. *)
From Coq Require Import List Arith NArith ZArith Ascii String Bool Lia.
From Verif Require Import Bytes Outcome IO IOFacts Primitives Crypto Header Stream KeyModel EncDec.
From Verif Require Import Overwrite Hash FS Erase Archive Cli.
From Verif Require Import BytesFacts HeaderSpec HeaderFacts IOSpec FileSpec FileFacts FileProofs KeyFacts DecryptSpec DecryptProofs
  FSSpec FSFacts EraseProofs ArchiveSpec ArchiveProofs UnpackProofs PackProofs RestorePack RestoreProofs ToolSpec ToolProofs
  CliSpec CliKeys CliRuns CliCommands CliProofs Fixtures FileCases FaultsSpec FaultsRuns FaultsProofs.
Import ListNotations.
Local Open Scope nat_scope.
Local Open Scope list_scope.

(** ** The library: what is decrypted is what would be without failures *)

Lemma decrypt_same : forall E pw v v', env_ok E ->
  decrypt_execute E false pw v = (Ok tt, v') -> no_short (d_plan (w_in v)) -> d_pos (w_in v) = 0 ->
  exists p, wrote (w_out v) (w_out v') p
    /\ ok_out (decrypt_execute E false pw (io_world (d_data (w_in v)))) = Some p.
Proof.
  intros E pw v v' HE H NS P0.
  destruct (decrypt_sound E false pw v v' HE H) as (h & aad & d1 & d2 & mk & ct & p & DS & D2 & EQ & UN & BO & WR & _ & FULL).
  specialize (EQ eq_refl). subst d2. cbn [header_source] in DS.
  assert (NS1 : no_short (d_plan d1)).
  { destruct (deserialize_suffix _ _ _ DS) as [l L]. intros k X. apply (NS k). rewrite L. apply in_or_app. right. exact X. }
  rewrite (FULL (or_intror NS1)) in BO.
  exists p. split; [exact WR|].
  pose proof (deserialize_spec _ _ _ DS) as (_ & _ & _ & SP). cbv zeta in SP. destruct SP as (S1 & S2 & S3 & S4).
  rewrite P0 in S1, S2, S3, S4.
  set (u := io_world (d_data (w_in v))).
  assert (DU : deserialize (w_in u) = (Ok (h, aad), set_pos (0 + get_size (ht_version (h_type h))) (w_in u))).
  { eapply deserialize_ok; [reflexivity|reflexivity|exact S1|exact S2|exact S3]. }
  destruct (decrypt_complete E pw u h aad _ mk p HE eq_refl eq_refl DU UN) as (u' & RU & WU).
  { unfold rest in *. cbn [set_pos d_pos d_data]. rewrite S4, D2 in BO. exact BO. }
  rewrite RU. cbn [ok_out]. f_equal. destruct WU as (WU & _). rewrite WU. apply write_at_empty.
Qed.

(** ** The command *)

Lemma read_header_dir : forall p c q c', read_header p c = (Ok (Some (EDir q)), c') ->
  exists hp, cp_header p = Some hp /\ stat (disk c) (os_path hp) = Some NDir.
Proof.
  intros p c q c' H. unfold read_header in H. destruct (cp_header p) as [hp|]; [|discriminate H].
  exists hp. split; [reflexivity|].
  unfold bind in H. destruct (storage (read_file (os_path hp)) c) as [r c1] eqn:RF.
  destruct (storage_inv _ _ _ _ RF) as (r1 & s1 & RF' & -> & ->). clear RF.
  destruct (read_file_any _ _ _ _ RF') as (D1 & C1 & [[-> ST]|[(j & plan & -> & ST & PL)|[-> _]]]);
    [exact ST|discriminate H|discriminate H].
Qed.

Lemma decrypt_main_an : forall V input output p c c',
  decrypt_main V input output p c = (Ok tt, c') ->
  exists i raw hi ho hh a1 a2, decrypted V input output p c c' i raw hi ho hh a1 a2
    /\ (all_or_nothing (disk c) -> no_short (h_plan hi))
    /\ (forall hp ih, cp_header p = Some hp -> stat (disk c) (os_path hp) = Some (NFile ih) -> hh <> None).
Proof.
  intros V input output p c c' H.
  remember (@Ok cli_error unit tt) as o eqn:OO. unfold decrypt_main in H.
  cut (only_writes (disk c) [os_path output] (disk c') /\ (forall e, o = Err e -> not_erase e) /\ (o = Ok tt -> exists i raw hi ho hh a1 a2, decrypted V input output p c c' i raw hi ho hh a1 a2
    /\ (all_or_nothing (disk c) -> no_short (h_plan hi))
    /\ (forall hp ih, cp_header p = Some hp -> stat (disk c) (os_path hp) = Some (NFile ih) -> hh <> None))); [intros (_ & _ & X); exact (X OO)|].
  clear OO.
  set (ts := [os_path output]). set (s := disk c).
  (* check *)
  unfold bind at 1 in H. destruct (check_or_exit output (cp_force p) c) as [r c0] eqn:CK.
  destruct (check_or_exit_any _ _ _ _ _ CK) as (CA & CT & RES & _).
  assert (S0 : disk c0 = s) by (unfold disk; rewrite CA; reflexivity).
  assert (W0 : only_writes s ts (disk c0)) by (rewrite S0; apply ow_refl).
  destruct RES as [<-|[<-|[<-|[]]]];
    [|injection H as <- <-; split; [exact W0|]; split; [intros e X; injection X as <-; split; discriminate|discriminate]
     |injection H as <- <-; split; [exact W0|]; split; [intros e X; injection X as <-; split; discriminate|discriminate]].
  pose proof (check_or_exit_stdin _ _ _ _ CK) as CS.
  (* input *)
  unfold bind at 1 in H. destruct (storage (read_file (os_path input)) c0) as [r1 c1] eqn:RF.
  destruct (storage_inv _ _ _ _ RF) as (r & s1 & RF' & -> & ->). clear RF. rewrite S0 in RF'.
  destruct (read_file_any _ _ _ _ RF') as (D1 & C1 & RES1).
  assert (W1 : only_writes s ts s1) by (apply ow_disk; exact D1).
  assert (RES1' : (exists fi, r = Ok fi /\ ((fi = EDir (os_path input)) \/ exists i plan, fi = EFile (mkHandle (os_path input) i 0 plan)
             /\ stat s (os_path input) = Some (NFile i) /\ (no_faults s -> plan = [])))
          \/ r = Err StOpenRead).
  { destruct RES1 as [[-> _]|[(i & plan & -> & X)|[-> _]]]; [left|left|right]; eauto 8. }
  clear RES1. destruct RES1' as [(fi & -> & FI)| ->]; cbn [omap] in H.
  2:{ injection H as <- <-. split; [exact W1|]. split; [intros e X; injection X as <-; split; discriminate|discriminate]. }
  (* header *)
  unfold bind at 1 in H. destruct (read_header p (set_disk s1 c0)) as [rh ch] eqn:RH.
  destruct (read_header_any _ _ _ _ RH) as (DH & TH & TTH & SIH & NPH & NDH & ERH & CH & OKH).
  rewrite set_disk_disk in DH, CH, OKH.
  assert (WH : only_writes s ts (disk ch)) by (eapply ow_then_disk; eauto).
  destruct rh as [fh|e| |]; try congruence.
  2:{ injection H as <- <-. split; [exact WH|]. split; [|discriminate]. intros x X. injection X as <-.
      destruct (ERH e eq_refl) as [y ->]; split; discriminate. }
  specialize (OKH fh eq_refl).
  (* key *)
  unfold bind at 1 in H.
  destruct (get_secret V (cp_key p) Direct ch) as [r2 c2] eqn:GS.
  destruct (get_secret_any _ _ _ _ _ _ GS) as (D2 & T2 & C2 & ND2 & PN2 & OK2 & ER2).
  assert (W2 : only_writes s ts (disk c2)) by (eapply ow_then_disk; eauto).
  destruct r2 as [raw|e| |]; [| | |congruence].
  2:{ injection H as <- <-. split; [exact W2|]. split; [|discriminate]. intros x X. injection X as <-.
      destruct (ER2 e eq_refl) as [SE _]. intros y. cbn in SE. 
      destruct SE as [<-|[<-|[<-|[<-|[<-|[<-|[]]]]]]]; split; discriminate. }
  2:{ injection H as <- <-. split; [exact W2|]. split; discriminate. }
  (* output *)
  unfold bind at 1 in H. destruct (storage (create_or_write (os_path output)) c2) as [r3 c3] eqn:SC.
  destruct (storage_inv _ _ _ _ SC) as (r & s3 & CW & -> & ->). clear SC.
  assert (I3 : In (os_path output) ts) by (left; reflexivity).
  destruct (ow_create_or_write _ _ _ _ _ _ W2 I3 CW) as [W3 MW3].
  assert (RES3 : (exists e, r = Err e) \/ exists ho, r = Ok (EFile ho) /\ s_data s3 (h_ino ho) = [] /\ h_pos ho = 0
             /\ (no_faults (disk c2) -> no_faults s3 /\ h_plan ho = [])).
  { destruct (create_or_write_any _ _ _ _ CW) as [(e & -> & _)|(h & -> & _ & A1 & A2 & _ & _ & _ & _ & A3 & _)]; eauto 8. }
  destruct RES3 as [[e ->]|(ho & -> & DE3 & PO3 & C3)]; cbn [omap] in H.
  { injection H as <- <-. split; [exact W3|]. split; [intros x X; injection X as <-; split; discriminate|discriminate]. }
  pose proof (cow_stat _ _ _ _ CW) as ST3.
  (* handles *)
  unfold bind at 1 in H. destruct FI as [->|(i & plan & -> & STI & PLI)]; cbn [try_handle] in H.
  { unfold err in H. injection H as <- <-. split; [exact W3|]. split; [intros x X; injection X as <-; split; discriminate|discriminate]. }
  unfold ret in H. unfold bind at 1 in H. cbn [try_handle] in H. unfold ret in H.
  (* decrypt *)
  unfold bind at 1 in H. rewrite on_a_run in H.
  set (hi := mkHandle (os_path input) i 0 plan) in *.
  destruct (decrypt_files V raw hi ho (ok_handle fh) (c_a (set_disk s3 c2))) as [r5 a5] eqn:EF. cbn [fst snd] in H.
  destruct (decrypt_files_frame _ _ _ _ _ _ _ _ EF) as (T5 & D5 & E5 & ER5).
  change (fst (c_a (set_disk s3 c2))) with s3 in T5, D5, E5.
  assert (W5 : only_writes s ts (fst a5)).
  { apply (ow_files s ts s3 (fst a5) [h_ino ho]); [exact W3|exact T5| | |].
    - intros j [<-|[]]. apply MW3. reflexivity.
    - intros j N. apply D5. intros ->. apply N. left. reflexivity.
    - destruct E5 as (es & AD & F). exists es. split; [exact AD|].
      eapply Forall_impl; [|exact F]. intros [] X; try exact X. left. auto. }
  destruct r5 as [u|e| |].
  2:{ injection H as <- <-. split; [exact W5|]. split; [|discriminate]. intros x X. injection X as <-.
      destruct (ER5 e eq_refl) as [->|[y ->]]; split; discriminate. }
  2,3: injection H as <- <-; split; [exact W5|]; split; discriminate.
  destruct u.
  (* flush *)
  unfold bind at 1 in H. destruct (storage (flush_file (EFile ho)) (set_a a5 (set_disk s3 c2))) as [r7 c7] eqn:F7.
  destruct (storage_inv _ _ _ _ F7) as (r & s7 & FF & -> & ->). rewrite set_a_disk in FF.
  destruct (flush_file_any _ _ _ _ FF) as (D7 & NP7 & ND7 & C7).
  assert (W7 : only_writes s ts s7) by (eapply ow_then_disk; eauto).
  destruct r as [u7|e| |]; cbn [omap] in H; try congruence.
  2:{ injection H as <- <-. split; [exact W7|]. split; [intros x X; injection X as <-; split; discriminate|discriminate]. }
  (* hash *)
  assert (HX : same_disk s7 (disk c') /\ (forall e, o = Err e -> not_erase e) /\ (no_faults s7 -> disk c' = s7)).
  { destruct (cp_hash p).
    - destruct (hash_files_any _ _ _ _ _ H) as (D8 & _ & _ & _ & ER8 & _ & _ & C8).
      rewrite set_disk_disk in D8. split; [exact D8|]. split.
      + intros e E. destruct (ER8 e E) as [->|[y ->]]; split; discriminate.
      + intros NF. destruct (C8 NF) as [CA8 _]. unfold disk at 1. rewrite CA8. reflexivity.
    - unfold ret in H. injection H as <- <-. split; [apply same_disk_refl|]. split; [discriminate|reflexivity]. }
  destruct HX as (D8 & ER8 & C8).
  split; [eapply ow_then_disk; eauto|]. split; [exact ER8|]. intros _.
  assert (D58 : same_disk (fst a5) (disk c')) by (eapply same_disk_trans; eauto).
  assert (ALL : forall q n, stat s3 q = Some n -> stat (disk c') q = Some n).
  { intros q n X. rewrite (stat_disk _ _ q D58). unfold stat in *.
    destruct T5 as (TN & TC & _). rewrite TN, (resolve_nodes true s3 (fst a5)) by congruence. exact X. }
  exists i, raw, hi, ho, (ok_handle fh), (c_a (set_disk s3 c2)), a5.
  assert (DC : same_disk s (disk ch)) by (eapply same_disk_trans; eauto).
  split.
  2:{ split.
      - fold s. intros A. destruct (oa_read_file _ _ _ _ RF' A) as [_ PI]. apply (PI hi). reflexivity.
      - fold s. intros hp ih EP STH. rewrite EP in OKH. destruct OKH as [->|(j & pl & -> & _)]; [|discriminate].
        destruct (read_header_dir _ _ _ _ RH) as (hp' & EP' & X). rewrite EP in EP'. injection EP' as <-.
        rewrite set_disk_disk in X. rewrite (stat_disk _ _ _ D1) in X. congruence. }
  constructor.
  - exact STI.
  - exists c0, (c_tty c2). split; [exact CA|]. split; [exact CT|]. split; [exact CS|].
    apply (yields_disk V c0 ch); [rewrite S0; exact DC|exact SIH|exact TTH|].
    apply OK2. reflexivity.
  - split; reflexivity.
  - split; [|exact PO3]. apply ALL. exact ST3.
  - destruct (cp_header p) as [hp|]; [|subst fh; reflexivity].
    destruct OKH as [->|(j & pl & -> & STJ & _)]; [left; reflexivity|right]. eexists. split; [reflexivity|].
    split; [reflexivity|]. cbn. fold s. rewrite <- STJ. symmetry. apply stat_disk. exact D1.
  - exact DE3.
  - exact W3.
  - exact EF.
  - exact D58.
  - intros NF. fold s in NF. assert (NF1 : no_faults s1) by (rewrite (C1 NF); exact NF).
    assert (NFH : no_faults (disk ch)) by (rewrite (CH NF1); exact NF1).
    destruct (C3 (C2 NFH)) as [NF3 P3].
    assert (NF5 : no_faults (fst a5)).
    { destruct NF3 as [X Y]. destruct T5 as (_ & _ & _ & _ & X' & Y'). split; congruence. }
    destruct (C7 NF5) as [-> _].
    split; [rewrite (C8 NF5); exact NF5|]. split; [exact (PLI NF)|]. split; [exact P3|].
    intros h E. destruct (cp_header p) as [hp|]; [|subst fh; discriminate E].
    destruct OKH as [->|(j & pl & -> & _ & PL)]; [discriminate E|].
    cbn in E. injection E as <-. exact (PL NF1).
Qed.

Lemma decrypt_faults : forall V g c o c' input output i,
  env_ok (ce_E V) -> ce_debug V = false -> all_or_nothing (disk c) -> inodes_ok (disk c) ->
  given g "input" input -> given g "output" output -> not_given g "header" ->
  stat (disk c) (os_path input) = Some (NFile i) ->
  stat (disk c) (os_path output) <> Some (NFile i) ->
  run_command V CmdDecrypt g c = (o, c') ->
  let whole := exists raw pt q j, key_taken V CmdDecrypt g Direct c output raw
    /\ ok_out (decrypt_execute (ce_E V) false raw (io_world (s_data (disk c) i))) = Some pt
    /\ resolve true (disk c) (os_path output) = Some q /\ at_place (disk c') q = Some (SFile j pt) in
  (o = Ok tt -> whole)
  /\ (whole \/ stat (disk c') (os_path input) = Some (NFile i) /\ s_data (disk c') i = s_data (disk c) i).
Proof.
  intros V g c o c' input output i HE DB AN IO GI GO GH ST SEP H whole.
  assert (NI : i < s_next (disk c)).
  { unfold stat in ST. destruct (resolve true (disk c) (os_path input)); [|discriminate]. exact (IO _ _ ST). }
  assert (NE : input <> output) by (intros ->; contradiction).
  destruct (decrypt_run _ _ _ _ _ _ _ DB GI GO NE H) as (p & n & o1 & c1 & PO & EM & RES).
  destruct (decrypt_main_any _ _ _ _ _ _ _ EM) as (W & _ & _). rewrite printed_disk in W.
  assert (SEP' : forall t, In t [os_path output] -> stat (disk c) t <> Some (NFile i)).
  { intros t [<-|[]]. exact SEP. }
  pose proof (ow_stat_kept _ _ _ _ _ W ST) as ST1.
  pose proof (ow_untouched _ _ _ _ W NI SEP') as [DI _].
  destruct RES as [(NO & -> & ->)|(-> & SE)].
  { split; [contradiction|]. right. auto. }
  destruct (decrypt_main_an _ _ _ _ _ _ EM) as (i' & raw & hi & ho & hh & a1 & a2 & EN & PLANS & _).
  rewrite printed_disk in PLANS. specialize (PLANS AN).
  assert (i' = i).
  { pose proof (de_input _ _ _ _ _ _ _ _ _ _ _ _ _ EN) as X. rewrite printed_disk, ST in X. congruence. }
  subst i'.
  cut whole. { intros K. split; [intros _; exact K|left; exact K]. }
  destruct (de_ho _ _ _ _ _ _ _ _ _ _ _ _ _ EN) as [STO POO].
  destruct (de_hi _ _ _ _ _ _ _ _ _ _ _ _ _ EN) as [HII PII].
  assert (OI : h_ino ho <> i).
  { intros X. rewrite X in STO. destruct (ow_stat_new _ _ _ _ _ W STO) as [Y|(_ & j & Y & L)].
    - exact (SEP Y).
    - injection Y as <-. lia. }
  pose proof (de_hh _ _ _ _ _ _ _ _ _ _ _ _ _ EN) as EH. rewrite (po_header _ _ _ _ PO) in EH.
  unfold not_given in GH. rewrite GH in EH. cbn [hd_error] in EH. subst hh.
  pose proof (de_run _ _ _ _ _ _ _ _ _ _ _ _ _ EN) as ER'. unfold decrypt_files in ER'.
  assert (AL : (same_file ho hi || same_opt ho None)%bool = false).
  { unfold same_file, same_opt. rewrite HII. apply Nat.eqb_neq in OI. rewrite OI. reflexivity. }
  rewrite AL in ER'. clear AL. unfold map_err, run_world in ER'. cbn [is_some] in ER'.
  set (w0 := mkWorld (handle_dev (fst a1) hi) (handle_dev (fst a1) ho) (opt_dev (fst a1) None) (s_rng (fst a1)) (snd a1)) in *.
  destruct (decrypt_execute (ce_E V) false raw w0) as [ox w1] eqn:EX.
  destruct ox as [[]|x| |]; try discriminate ER'. injection ER' as <-.
  pose proof (de_empty _ _ _ _ _ _ _ _ _ _ _ _ _ EN) as EE.
  pose proof (de_before _ _ _ _ _ _ _ _ _ _ _ _ _ EN) as WB. rewrite printed_disk in WB.
  pose proof (ow_untouched _ _ _ _ WB NI SEP') as [DIB _].
  destruct (de_after _ _ _ _ _ _ _ _ _ _ _ _ _ EN) as (_ & DA & _). cbn [fst] in DA.
  destruct (decrypt_same (ce_E V) raw w0 w1 HE EX PLANS PII) as (pt & WR & OKO).
  assert (WIN : d_data (w_in w0) = s_data (disk c) i).
  { cbn [w0 w_in handle_dev d_data]. rewrite HII. exact DIB. }
  rewrite WIN in OKO.
  assert (DO : s_data (disk c1) (h_ino ho) = pt).
  { rewrite DA. cbn [with_rng s_data put_opt]. unfold put_handle at 1. cbn [with_data s_data].
    unfold set_data. rewrite Nat.eqb_refl. destruct WR as (WR & _). rewrite WR.
    cbn [w0 w_out handle_dev d_data d_pos]. rewrite EE, POO. apply write_at_empty. }
  pose proof STO as STO'. unfold stat in STO'. destruct (resolve true (disk c1) (os_path output)) as [q|] eqn:RT; [|discriminate].
  exists raw, pt, q, (h_ino ho). split.
  { destruct (de_key _ _ _ _ _ _ _ _ _ _ _ _ _ EN) as (c0 & t & CA & CT & CS & Y).
    exists (cp_key p), c0, t. split; [apply PO|]. split; [exact CA|]. split; [exact CT|]. split; [auto|exact Y]. }
  split; [exact OKO|]. rewrite <- (ow_resolve true _ _ _ (os_path output) W). split; [exact RT|].
  rewrite <- DO. eapply erase_spares; eauto.
Qed.
