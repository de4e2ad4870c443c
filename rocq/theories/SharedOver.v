(** The output and the header in one file: the body is written over the header. *)
From Coq Require Import List Arith NArith ZArith Lia Bool.
From Verif Require Import Bytes Outcome IO Primitives Crypto Header Stream KeyModel EncDec.
From Verif Require Import FS Archive Shared SharedSpec HeaderSpec BytesFacts IOSpec IOFacts HeaderFacts FileFacts.
From Verif Require Import FileSpec StreamSpec StreamFacts WorldFrames FileProofs DecSim SharedSim SharedProofs SharedDecrypt SharedEncrypt SharedExact.
Import ListNotations.
Local Open Scope nat_scope.

Section Over.
Context (ni no : nat) (s0 : sys) (H : bytes) (NE : ni <> no).

(** The output of [w], over the bytes [H]. *)
Record over (x : shared) (w : world) : Prop := {
  v_ii : h_ino (sh_in x) = ni; v_io : h_ino (sh_out x) = no;
  v_in : older (d_log (w_in w)) (handle_dev (sh_sys x) (sh_in x)) (w_in w);
  v_pos : h_pos (sh_out x) = length (d_data (w_out w));
  v_end : d_pos (w_out w) = length (d_data (w_out w));
  v_plan : h_plan (sh_out x) = [] /\ d_plan (w_out w) = [];
  v_data : s_data (sh_sys x) no = d_data (w_out w) ++ skipn (length (d_data (w_out w))) H;
  v_rest : forall j, j <> no -> s_data (sh_sys x) j = s_data s0 j;
  v_tr : sh_tr x = w_tr w
}.

Lemma over_in : forall {E A} (m : M dev E A), always still m -> blind m ->
  sim over (p_in shared_ports m) (p_in world_ports m).
Proof.
  intros E A m ST B x w R. cbn [p_in shared_ports world_ports]. unfold at_in, on_in, zoom.
  destruct R. destruct (B _ _ _ v_in0) as (F & G).
  destruct (m (handle_dev (sh_sys x) (sh_in x))) as [o1 d1] eqn:M1, (m (w_in w)) as [o2 d2].
  cbn [fst snd] in *. subst o2. split; [reflexivity|].
  destruct (ST _ _ _ M1) as (D & L & _). cbn [handle_dev d_data d_log] in D, L.
  destruct (put_still _ _ _ D L) as (_ & SD & _).
  constructor; cbn [sh_in sh_out sh_hdr sh_sys sh_tr w_in w_out w_hdr w_rng w_tr]; auto.
  - destruct G as (G1 & G2 & G3 & G4). unfold older, handle_dev.
    cbn [d_data d_pos d_plan d_log move_handle h_ino h_pos h_plan]. rewrite SD, app_nil_r, <- D. auto.
  - rewrite SD. exact v_data0.
  - intros j J. rewrite SD. auto.
Qed.
Lemma over_tr : forall {E A} (m : M trace E A), sim over (p_tr shared_ports m) (p_tr world_ports m).
Proof.
  intros E A m x w R. cbn [p_tr shared_ports world_ports]. unfold on_tr, zoom. destruct R. rewrite v_tr0.
  destruct (m (w_tr w)) as [o t]. cbn [fst snd]. split; [reflexivity|]. constructor; auto.
Qed.
Lemma over_flush : sim over (p_out shared_ports dev_flush) (p_out world_ports dev_flush).
Proof.
  intros x w R. destruct R. destruct v_plan0 as (P1 & P2). cbn [p_out shared_ports world_ports].
  unfold at_out, on_out, zoom, dev_flush, next_ev.
  cbn [handle_dev d_plan]. rewrite P1, P2. cbn [fst snd]. split; [reflexivity|].
  assert (SD : forall j, s_data (put_handle (handle_dev (sh_sys x) (sh_out x)) (sh_out x) (sh_sys x)) j = s_data (sh_sys x) j).
  { apply put_still; reflexivity. }
  unfold handle_dev in SD. rewrite P1 in SD.
  constructor; cbn [sh_in sh_out sh_hdr sh_sys sh_tr w_in w_out w_hdr w_rng w_tr move_handle h_ino h_pos h_plan d_pos d_plan]; auto.
  - unfold older, handle_dev in *. cbn [d_data d_pos d_plan d_log] in *. unfold handle_dev. rewrite SD. exact v_in0.
  - unfold handle_dev. rewrite SD. exact v_data0.
  - intros j J. unfold handle_dev. rewrite SD. auto.
Qed.
Lemma over_write : forall ct, sim over (p_out shared_ports (dev_write_all ct)) (p_out world_ports (dev_write_all ct)).
Proof.
  intros ct x w R. destruct R. destruct v_plan0 as (P1 & P2). cbn [p_out shared_ports world_ports].
  unfold at_out, on_out, zoom. rewrite !dev_write_all_ok by assumption.
  cbn [fst snd]. split; [reflexivity|].
  constructor; cbn [sh_in sh_out sh_hdr sh_sys sh_tr w_in w_out w_hdr w_rng w_tr move_handle h_ino h_pos h_plan
    put_at d_data d_pos d_plan d_log handle_dev]; auto.
  - unfold older, handle_dev in *. cbn [d_data d_pos d_plan d_log] in *. unfold put_handle, with_data, set_data.
    cbn [s_data]. rewrite v_io0, v_ii0. destruct (Nat.eqb_spec ni no); [contradiction|]. rewrite v_ii0 in v_in0. exact v_in0.
  - rewrite v_pos0, v_end0. unfold write_at. destruct ct; [cbn; lia|].
    rewrite !app_length, firstn_all, skipn_length, Nat.sub_diag. cbn [zeros repeat length]. unfold zeros; cbn; lia.
  - rewrite v_end0. unfold write_at. destruct ct; [cbn; lia|].
    rewrite !app_length, firstn_all, skipn_length, Nat.sub_diag. unfold zeros; cbn; lia.
  - unfold put_handle, with_data, set_data. cbn [s_data d_data put_at d_pos handle_dev]. unfold handle_dev. cbn [d_data d_pos]. rewrite v_io0, Nat.eqb_refl, v_pos0, v_end0, v_data0.
    unfold write_at. destruct ct as [|c ct]; [reflexivity|]. set (l := c :: ct). set (d := d_data (w_out w)).
    rewrite Nat.sub_diag, firstn_all. cbn [zeros repeat app].
    replace (length d - length (d ++ skipn (length d) H)) with 0 by (rewrite app_length; lia).
    cbn [zeros repeat app]. rewrite firstn_app, firstn_all, Nat.sub_diag, firstn_O, app_nil_r.
    rewrite (skipn_all2 d) by lia. rewrite app_nil_r. rewrite skipn_app.
    rewrite (skipn_all2 d) by lia. rewrite skipn_skipn'. cbn [app].
    unfold zeros; cbn [repeat app]. rewrite !app_length, <- app_assoc. f_equal. f_equal. f_equal. lia.
  - intros j J. unfold put_handle, with_data, set_data. cbn [s_data]. rewrite v_io0.
    destruct (Nat.eqb_spec j no); [contradiction|]. auto.
Qed.

Lemma over_loop : forall E bs aad fuel s, sim over (encrypt_loop_p shared_ports E bs fuel s aad) (encrypt_loop_p world_ports E bs fuel s aad).
Proof.
  intros E bs aad. induction fuel as [|fuel IH]; intros s; [apply sim_const|]. cbn [encrypt_loop_p].
  apply sim_bind; [apply sim_map_err, over_in; [apply still_read|apply blind_read]|intros buf].
  destruct (length buf =? bs).
  - apply sim_bind; [apply sim_map_err, over_tr|intros cs].
    apply sim_bind; [apply sim_map_err, over_write|intros _]. apply IH.
  - apply sim_bind; [apply sim_map_err, over_tr|intros ct]. apply sim_map_err, over_write.
Qed.
Lemma over_file : forall E bs s aad, sim over (encrypt_file_p shared_ports E bs s aad) (encrypt_file_p world_ports E bs s aad).
Proof.
  intros E bs s aad x w R. unfold encrypt_file_p.
  assert (SZ : p_size shared_ports x = p_size world_ports w).
  { cbn [p_size shared_ports world_ports]. destruct R. destruct v_in0 as (D & _). cbn [handle_dev d_data] in D.
    rewrite D. reflexivity. }
  rewrite SZ. apply sim_bind; [apply over_loop|intros _; apply sim_map_err, over_flush|exact R].
Qed.
End Over.

Lemma body_over_header_bs : forall E bs req hi ho hh (a : asys), v5_request req -> er_detached req = true ->
  fresh hi -> fresh ho -> fresh hh -> h_ino hi <> h_ino ho -> h_ino hh = h_ino ho ->
  s_data (fst a) (h_ino ho) = [] ->
  let r := encrypt_execute_p shared_ports E bs req (mkShared hi ho (Some hh) (fst a) (snd a)) in
  let w := encrypt_execute_p world_ports E bs req
             (mkWorld (dev_of (s_data (fst a) (h_ino hi))) (dev_of []) (dev_of []) (s_rng (fst a)) (snd a)) in
  fst r = fst w
  /\ s_data (sh_sys (snd r)) (h_ino ho)
     = d_data (w_out (snd w)) ++ skipn (length (d_data (w_out (snd w)))) (d_data (w_hdr (snd w)))
  /\ (forall j, j <> h_ino ho -> s_data (sh_sys (snd r)) j = s_data (fst a) j).
Proof.
  intros E bs req hi ho hh a HV DT (FI1 & FI2) (FO1 & FO2) (FH1 & FH2) NE IH DO. cbv zeta.
  set (x0 := mkShared hi ho (Some hh) (fst a) (snd a)).
  set (w0 := mkWorld (dev_of (s_data (fst a) (h_ino hi))) (dev_of []) (dev_of []) (s_rng (fst a)) (snd a)).
  assert (R0 : rel hi ho (Some hh) (fst a) true true false x0 w0).
  { pose proof (rel_start hi ho (Some hh) true true false a) as R. destruct R.
    constructor; cbn [sh_in sh_out sh_hdr sh_sys sh_tr w_in w_out w_hdr w_rng w_tr x0 w0] in *; auto.
    - intros X. specialize (r_in X). unfold handle_dev in r_in. rewrite FI1, FI2 in r_in. exact r_in.
    - intros X. specialize (r_out X). unfold handle_dev in r_out. rewrite FO1, FO2, DO in r_out. exact r_out.
    - discriminate. }
  pose proof (rel_keys hi ho (Some hh) (fst a) true true false E req _ _ R0) as (KF & KR).
  pose proof (keys_spec E req x0 HV) as K. unfold keyed in K.
  destruct (encrypt_keys_p shared_ports E req x0) as [ok x1] eqn:K1. cbn [fst] in K.
  destruct (encrypt_keys_p world_ports E req w0) as [okw w1] eqn:KW. cbn [fst snd] in KF, KR. subst okw.
  destruct (keys_devices E req _ _ _ KW) as (WI & WO & WH). cbn [w0 w_in w_out w_hdr] in WI, WO, WH.
  destruct (drawn_keys E req _ _ _ K1) as (g & t & X1).
  unfold encrypt_execute_p.
  destruct ok as [[st hd]|e| |]; try contradiction.
  2:{ rewrite (bind_err _ _ _ _ _ K1), (bind_err _ _ _ _ _ KW). cbn [fst snd]. rewrite WO, WH, X1.
      split; [reflexivity|]. cbn. split; [exact DO|reflexivity]. }
  destruct K as ((b & SB & LB) & aad & SA).
  assert (BN : b <> []) by (intros ->; discriminate LB).
  erewrite bind_ok by exact K1. erewrite (bind_ok (encrypt_keys_p world_ports E req)) by exact KW. cbn [fst snd]. rewrite DT.
  erewrite (bind_ok (put_header_p world_ports true hd)) by (apply put_clean; eauto).
  set (w2 := set_hdr _ _).
  assert (HO : handle_dev (sh_sys x1) (sh_out x1) = dev_of []).
  { rewrite X1. unfold handle_dev. cbn. rewrite DO, FO1, FO2. reflexivity. }
  assert (PX : exists x2, put_header_p shared_ports true hd x1 = (Ok tt, x2)
     /\ sh_in x2 = hi /\ h_ino (sh_out x2) = h_ino ho /\ h_pos (sh_out x2) = 0 /\ h_plan (sh_out x2) = []
     /\ s_data (sh_sys x2) (h_ino ho) = b /\ (forall j, j <> h_ino ho -> s_data (sh_sys x2) j = s_data (fst a) j)
     /\ sh_tr x2 = sh_tr x1).
  { rewrite X1 in HO |- *. cbn [sh_in sh_out sh_hdr sh_sys sh_tr x0] in HO |- *.
    set (s1 := with_rng g (fst a)) in *.
    set (s2 := put_handle (dev_of []) ho s1).
    assert (D2 : forall j, s_data s2 j = s_data (fst a) j).
    { intros j. unfold s2, put_handle, with_data, set_data. cbn [s_data d_data dev_of].
      destruct (Nat.eqb_spec j (h_ino ho)); [subst; symmetry; exact DO|reflexivity]. }
    set (s3 := put_handle (dev_of []) hh s2).
    assert (D3 : forall j, s_data s3 j = s_data (fst a) j).
    { intros j. unfold s3, put_handle, with_data, set_data. cbn [s_data d_data dev_of]. rewrite IH.
      destruct (Nat.eqb_spec j (h_ino ho)); [subst; symmetry; exact DO|apply D2]. }
    assert (H2 : handle_dev s2 hh = dev_of []).
    { unfold handle_dev. rewrite D2, IH, DO, FH1, FH2. reflexivity. }
    assert (H3 : handle_dev s3 (move_handle (dev_of []) hh) = dev_of []).
    { unfold handle_dev. cbn [move_handle h_ino h_pos h_plan dev_of d_pos d_plan]. rewrite D3, IH, DO. reflexivity. }
    eexists. split; [|shelve].
    unfold put_header_p. erewrite bind_ok.
    2:{ apply map_err_ok. cbn [p_out shared_ports]. unfold at_out. cbn [sh_in sh_out sh_hdr sh_sys sh_tr]. rewrite HO, (rewind_clean [] _ eq_refl). reflexivity. }
    erewrite bind_ok.
    2:{ apply map_err_ok. cbn [p_hdr shared_ports]. unfold at_hdr. cbn [sh_in sh_out sh_hdr sh_sys sh_tr].
        fold s2. rewrite H2, (rewind_clean [] _ eq_refl). reflexivity. }
    fold s2. fold s3.
    cbn [p_hdr shared_ports]. unfold at_hdr. cbn [sh_in sh_out sh_hdr sh_sys sh_tr].
    rewrite H3, (header_clean _ _ SB BN). reflexivity.
    Unshelve.
    cbn [sh_in sh_out sh_hdr sh_sys sh_tr move_handle h_ino h_pos h_plan dev_of d_pos d_plan].
    fold s2. fold s3. repeat split; auto.
    - unfold put_handle at 1, with_data, set_data. cbn [s_data d_data move_handle h_ino]. rewrite IH, Nat.eqb_refl. reflexivity.
    - intros j J. unfold put_handle at 1, with_data, set_data. cbn [s_data d_data move_handle h_ino]. rewrite IH.
      destruct (Nat.eqb_spec j (h_ino ho)); [contradiction|apply D3]. }
  destruct PX as (x2 & PX & SI & IO & PO & LO & D2 & DR & T2).
  erewrite bind_ok by exact PX. rewrite SA. erewrite !(bind_ok (map_err _ (lift _))) by reflexivity.
  assert (OV : over (h_ino hi) (h_ino ho) (fst a) b x2 w2).
  { constructor.
    - rewrite SI. reflexivity.
    - exact IO.
    - rewrite SI. unfold w2. cbn [set_hdr w_in]. rewrite WI. unfold older, handle_dev, dev_of. cbn.
      rewrite DR by exact NE. auto.
    - unfold w2. cbn [set_hdr w_out]. rewrite WO. exact PO.
    - unfold w2. cbn [set_hdr w_out]. rewrite WO. reflexivity.
    - unfold w2. cbn [set_hdr w_out]. rewrite WO. auto.
    - unfold w2. cbn [set_hdr w_out]. rewrite WO. exact D2.
    - exact DR.
    - rewrite T2. unfold w2. cbn [set_hdr w_tr]. apply (r_tr _ _ _ _ _ _ _ _ _ KR). }
  assert (SM : sim (over (h_ino hi) (h_ino ho) (fst a) b)
    (map_err (fun _ => EncResetCursorPosition) (p_in shared_ports dev_rewind) ;;
     map_err (fun _ => EncEncryptFile) (encrypt_file_p shared_ports E bs st aad))
    (map_err (fun _ => EncResetCursorPosition) (p_in world_ports dev_rewind) ;;
     map_err (fun _ => EncEncryptFile) (encrypt_file_p world_ports E bs st aad))).
  { apply sim_bind; [apply sim_map_err, over_in; [apply still_rewind|apply blind_rewind]|intros _].
    apply sim_map_err, over_file. exact NE. }
  destruct (SM _ _ OV) as (F & R).
  assert (HK : w_hdr (snd ((map_err (fun _ => EncResetCursorPosition) (p_in world_ports dev_rewind) ;;
     map_err (fun _ => EncEncryptFile) (encrypt_file_p world_ports E bs st aad)) w2)) = mkDev b (length b) [] [(0, b)]).
  { change (mkDev b (length b) [] [(0, b)]) with (w_hdr w2).
    set (Q := fun w w' : world => w_hdr w' = w_hdr w).
    assert (QR : forall w, Q w w) by reflexivity.
    assert (QT : forall u v w, Q u v -> Q v w -> Q u w) by (unfold Q; congruence).
    assert (QI : forall E A (m : M dev E A), always Q (p_in world_ports m)).
    { intros E' A m w o w' M. cbn [p_in world_ports] in M. unfold on_in, zoom in M. destruct (m _). inversion M; subst. reflexivity. }
    assert (QO : forall E A (m : M dev E A), always Q (p_out world_ports m)).
    { intros E' A m w o w' M. cbn [p_out world_ports] in M. unfold on_out, zoom in M. destruct (m _). inversion M; subst. reflexivity. }
    assert (QC : forall E A (m : M trace E A), always Q (p_tr world_ports m)).
    { intros E' A m w o w' M. cbn [p_tr world_ports] in M. unfold on_tr, zoom in M. destruct (m _). inversion M; subst. reflexivity. }
    assert (QL : forall fuel s, always Q (encrypt_loop_p world_ports E bs fuel s aad)).
    { induction fuel as [|fuel IHf]; intros s.
      - intros w o w' M. inversion M; subst. reflexivity.
      - cbn [encrypt_loop_p]. apply (always_bind _ QT); [apply always_map_err, QI|intros buf].
        destruct (length buf =? bs).
        + apply (always_bind _ QT); [apply always_map_err, QC|intros cs].
          apply (always_bind _ QT); [apply always_map_err, QO|intros _]. apply IHf.
        + apply (always_bind _ QT); [apply always_map_err, QC|intros cs]. apply always_map_err, QO. }
    assert (QA : always Q (map_err (fun _ => EncResetCursorPosition) (p_in world_ports dev_rewind) ;;
       map_err (fun _ => EncEncryptFile) (encrypt_file_p world_ports E bs st aad))).
    { apply (always_bind _ QT); [apply always_map_err, QI|intros _]. apply always_map_err.
      intros w o w' M. unfold encrypt_file_p in M. revert M.
      apply (always_bind _ QT (encrypt_loop_p world_ports E bs (S (p_size world_ports w)) st aad)); [apply QL|intros _].
      apply always_map_err, QO. }
    destruct ((map_err _ _ ;; _) w2) as [o w3] eqn:M. exact (QA _ _ _ M). }
  split; [exact F|]. rewrite HK. cbn [d_data]. destruct R. auto.
Qed.

Lemma body_over_header : forall E req hi ho hh a, v5_request req -> er_detached req = true ->
  fresh hi -> fresh ho -> fresh hh -> h_ino hi <> h_ino ho -> h_ino hh = h_ino ho ->
  s_data (fst a) (h_ino ho) = [] ->
  let '(o, (out, hdr)) := encrypted E req (s_rng (fst a)) (snd a) (s_data (fst a) (h_ino hi)) in
  let r := run_shared (encrypt_shared E req) hi ho (Some hh) a in
  fst (fst r) = o
  /\ s_data (fst (snd r)) (h_ino ho) = out ++ skipn (length out) hdr
  /\ (forall j, j <> h_ino ho -> s_data (fst (snd r)) j = s_data (fst a) j).
Proof.
  intros E req hi ho hh a HV DT FI FO FH NE IH DO.
  pose proof (body_over_header_bs E BLOCK_SIZE req hi ho hh a HV DT FI FO FH NE IH DO) as H.
  cbv zeta in H. unfold encrypted, encrypt_execute. rewrite <- same_encrypt.
  unfold run_shared, encrypt_shared.
  destruct (encrypt_execute_p world_ports E BLOCK_SIZE req _) as [o wf].
  destruct (encrypt_execute_p shared_ports E BLOCK_SIZE req _) as [o' xf]. cbn [fst snd] in *. exact H.
Qed.

(** What comes back of a file encrypted onto itself: its header. *)
Lemma comes_back : forall E req hi ho (a : asys) key, env_ok E -> v5_request req ->
  ht_mode (er_header_type req) = StreamMode -> er_detached req = false ->
  fresh hi -> fresh ho -> h_ino hi = h_ino ho -> s_data (fst a) (h_ino ho) = [] ->
  hash E (er_hashing_algorithm req) (er_raw_key req) (FileSpec.draw (s_rng (fst a)) 0 16) = Ok key ->
  let r := run_shared (encrypt_shared E req) hi ho None a in
  fst (fst r) = Ok tt
  /\ let file := s_data (fst (snd r)) (h_ino ho) in
     forall v, d_plan (w_in v) = [] -> d_plan (w_out v) = [] -> rest (w_in v) = file ->
          exists v', decrypt_execute E false (er_raw_key req) v = (Ok tt, v')
            /\ wrote (w_out v) (w_out v') (firstn 416 file).
Proof.
  intros E req hi ho a key HE HV HM DT FI FO II DO HK. cbv zeta.
  assert (DT' : er_detached req = match @None handle with Some _ => true | None => false end) by exact DT.
  assert (TG : target req ho None = Some (h_ino hi)) by (unfold target; rewrite DT, II; reflexivity).
  assert (NG : forall g, @None handle = Some g -> fresh g /\ h_ino g <> h_ino ho) by discriminate.
  assert (ND : forall g, @None handle = Some g -> s_data (fst a) (h_ino g) = []) by discriminate.
  destruct (onto_header E req hi ho None a HV DT' FI FO NG DO ND TG) as (D & H).
  unfold encrypted in H.
  set (w := mkWorld (dev_of D) (dev_of []) (dev_of []) (s_rng (fst a)) (snd a)) in *.
  destruct (encrypt_execute E req w) as [o wf] eqn:EE.
  destruct H as (F & O & _ & _ & LD & OK).
  assert (CM : (N.of_nat (length (d_data (w_in w)) / BLOCK_SIZE) <= counter_max E)%N).
  { cbn [w w_in dev_of d_data]. rewrite Nat.div_small by (pose proof block_large; lia). apply N.le_0_l. }
  destruct (file_round_trip_v5 E req w key HE HV HM DT eq_refl eq_refl HK CM) as (w' & file & EE' & WR & FILE & BACK).
  rewrite EE in EE'. injection EE' as -> ->. split; [exact F|]. rewrite O, (FILE eq_refl).
  destruct (OK eq_refl) as (L & P & _). rewrite <- II in O. rewrite O in P.
  assert (PF : firstn 416 file = D) by (rewrite <- (FILE eq_refl); exact P).
  intros v V1 V2 V3. destruct (BACK v V1 V2 V3) as (v' & DV & WV). exists v'. split; [exact DV|].
  rewrite PF. exact WV.
Qed.
