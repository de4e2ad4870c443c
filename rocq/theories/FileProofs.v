(** Proofs about whole-file encryption and decryption. *)
From Coq Require Import List Arith NArith ZArith Lia Bool.
From Verif Require Import Bytes Outcome IO Primitives Crypto Header Stream KeyModel EncDec.
From Verif Require Import BytesFacts IOSpec IOFacts HeaderSpec HeaderFacts HeaderProofs.
From Verif Require Import StreamSpec StreamFacts StreamProofs FileSpec FileFacts.
Local Open Scope nat_scope.

(** ** Honest runs *)

(** [ct] is what a stream under [mk] and the header's nonce makes of [p]. *)
Definition sealed_body (E : env) (bs : nat) (h : header) (aad mk p ct : bytes)
  (cs : list call) : Prop :=
  exists bl last,
    enc_run E aad (mkStream (ht_algorithm (h_type h)) mk (h_nonce h) 0) bl (Some last) cs
    /\ Forall (fun b => length b = bs) bl /\ length last < bs
    /\ p = concat bl ++ last /\ ct = concat (map c_ct cs).

(** Decryption after the header is read. *)
Definition dec_body (E : env) (bs : nat) (raw_key : bytes) (h : header) (aad : bytes)
  : M world dec_error unit :=
  let a := ht_algorithm (h_type h) in
  match ht_mode (h_type h) with
  | MemoryMode =>
      data <- map_err (fun _ => DecReadEncryptedData) (on_in dev_read_to_end) ;;
      mk <- map_err (fun _ => DecDecryptMasterKey)
              (on_tr (decrypt_master_key E raw_key h)) ;;
      c <- map_err (fun _ => DecInitializeCiphers) (lift (ciphers_initialize mk a)) ;;
      m <- map_err (fun _ => DecDecryptData)
             (on_tr (ciphers_decrypt E c (h_nonce h) aad data)) ;;
      map_err (fun _ => DecWriteData) (on_out (dev_write_all m))
  | StreamMode =>
      mk <- map_err (fun _ => DecDecryptMasterKey)
              (on_tr (decrypt_master_key E raw_key h)) ;;
      s <- map_err (fun _ => DecInitializeStreams)
             (lift (dec_stream_initialize mk (h_nonce h) a)) ;;
      map_err (fun _ => DecDecryptData) (decrypt_file_bs E bs s aad)
  end.

Lemma dec_body_honest : forall E bs pw h aad mk p ct cs w,
  env_ok E -> 0 < bs -> header_shape h -> ht_mode (h_type h) = StreamMode ->
  unlocks E pw h mk -> sealed_body E bs h aad mk p ct cs ->
  d_plan (w_in w) = [] -> d_plan (w_out w) = [] -> rest (w_in w) = ct ->
  exists w', dec_body E bs pw h aad w = (Ok tt, w')
    /\ wrote (w_out w) (w_out w') p /\ framed w w'.
Proof.
  intros E bs pw h aad mk p ct cs w HE Hbs Hsh Hm Hu (bl & last & R1 & R2 & R3 & R4 & R5) Hi Ho Hr.
  unfold dec_body. rewrite Hm.
  destruct (decrypt_master_key_spec E pw h (w_tr w) HE Hsh) as [(mk' & new & Hu' & Hl & Hd & _)|(Hn & _)].
  2:{ exfalso. eapply Hn; eauto. }
  assert (mk' = mk) by (eapply unlocks_unique; eauto). subst mk'.
  erewrite bind_ok by (apply map_err_ok, zoom_eq; exact Hd).
  destruct Hsh as (Hns & _). unfold nonce_sized in Hns. rewrite Hm in Hns.
  erewrite bind_ok by (apply map_err_ok; unfold lift; rewrite dec_init_complete by assumption; reflexivity).
  match goal with |- exists w', ?m ?w1 = _ /\ _ => set (w2 := w1) end.
  destruct (decrypt_honest E bs mk (h_nonce h) (ht_algorithm (h_type h))
              (mkStream (ht_algorithm (h_type h)) mk (h_nonce h) 0) aad p ct HE Hbs) with (w := w2)
    (bl := bl) (last := last) (cs := cs) as (w' & D1 & D2 & D3 & _); auto.
  { unfold stream_ok. auto. }
  exists w'. split; [apply map_err_ok; exact D1|]. split; [exact D2|exact D3].
Qed.

Lemma reread_unlocks : forall E pw h mk, unlocks E pw (reread h) mk <-> unlocks E pw h mk.
Proof.
  intros. unfold unlocks. rewrite reread_version. unfold reread.
  destruct (ht_version (h_type h)) eqn:Hv; cbn [h_keyslots h_type h_salt]; reflexivity.
Qed.

Lemma wf_shape : forall h, wf_header h -> header_shape h.
Proof.
  intros h [(W1 & W2 & _ & s & W3 & _)|[(W1 & W2 & k & W3 & W4 & _)|(W1 & W2 & l & W3 & _ & W4)]];
    unfold header_shape; rewrite W1; (split; [exact W2|]); eauto using Forall_slot_wf_sized.
Qed.

Lemma reread_shape : forall h, wf_header h -> header_shape (reread h).
Proof.
  intros h H. apply wf_shape in H. unfold header_shape, nonce_sized in *.
  rewrite reread_version. unfold reread.
  destruct (ht_version (h_type h)) eqn:Hv; cbn [h_keyslots h_type h_salt h_nonce]; exact H.
Qed.

Lemma reread_type : forall h, h_type (reread h) = h_type h.
Proof. intros h. unfold reread. destruct (ht_version (h_type h)); reflexivity. Qed.

Lemma reread_nonce : forall h, h_nonce (reread h) = h_nonce h.
Proof. intros h. unfold reread. destruct (ht_version (h_type h)); reflexivity. Qed.

Lemma deserialize_run : forall h b aad d, wf_header h -> serialize h = Ok b -> create_aad h = Ok aad ->
  at_cursor d b -> d_plan d = [] ->
  deserialize d = (Ok (reread h, aad), set_pos (d_pos d + length b) d).
Proof.
  intros h b aad d Hwf Hs Ha Hat Hp.
  destruct (header_round_trip h Hwf) as (b' & Hs' & Hrt). rewrite Hs in Hs'. apply Ok_inj in Hs'. subst b'.
  destruct (Hrt d Hat) as (H1 & _). destruct (H1 Hp) as (h' & aad' & Hd & _).
  pose proof (deserialize_reads _ _ _ _ _ Hwf Hs Hat Hd) as R. cbn in R.
  destruct R as (-> & Ha' & _). rewrite Ha in Ha'. apply Ok_inj in Ha'. now subst aad'.
Qed.

Lemma decrypt_embedded_honest : forall E bs pw h b aad mk p ct cs v,
  env_ok E -> 0 < bs -> wf_header h -> ht_mode (h_type h) = StreamMode ->
  serialize h = Ok b -> create_aad h = Ok aad ->
  unlocks E pw h mk -> sealed_body E bs h aad mk p ct cs ->
  d_plan (w_in v) = [] -> d_plan (w_out v) = [] -> rest (w_in v) = b ++ ct ->
  exists v', decrypt_execute_bs E bs false pw v = (Ok tt, v') /\ wrote (w_out v) (w_out v') p.
Proof.
  intros E bs pw h b aad mk p ct cs v HE Hbs Hwf Hm Hs Ha Hu Hb Hi Ho Hr.
  unfold decrypt_execute_bs. unfold rest in Hr.
  assert (Hat : at_cursor (w_in v) b) by (exists ct; exact Hr).
  erewrite bind_ok by (apply map_err_ok, zoom_eq; eapply deserialize_run; eauto).
  match goal with |- exists v', ?m ?w = _ /\ _ => set (w1 := w) end.
  destruct (dec_body_honest E bs pw (reread h) aad mk p ct cs w1) as (w' & D1 & D2 & D3); auto.
  - now apply reread_shape.
  - now rewrite reread_type.
  - now apply reread_unlocks.
  - destruct Hb as (bl & last & Hb). exists bl, last. now rewrite reread_type, reread_nonce.
  - unfold rest. cbn [w_in w1 set_pos d_pos d_data].
    rewrite <- skipn_skipn', Hr. now apply skipn_app_exact.
  - exists w'. split; [exact D1|exact D2].
Qed.

(** Detached: the body is found if the bytes where a blank header would be are
    not all zero. *)
Definition starts_blank (size : nat) (ct : bytes) : Prop := all_zero (firstn size ct) = true.

Lemma skip_empty_header_run : forall size d, d_plan d = [] -> d_pos d = 0 ->
  skip_empty_header size d
  = (Ok tt, if all_zero (firstn size (d_data d))
            then set_pos (Nat.min size (length (d_data d))) d else set_pos 0 d).
Proof.
  intros size d Hp H0. unfold skip_empty_header.
  assert (Hz : forall n, all_zero (zeros n) = true).
  { induction n; cbn; auto. }
  assert (Haz : forall a b, all_zero (a ++ b) = all_zero a && all_zero b).
  { intros a b. unfold all_zero. apply forallb_app. }
  destruct (le_lt_dec size (length (d_data d))) as [Hle|Hlt].
  - erewrite bind_ok.
    2:{ unfold or_else. rewrite dev_read_exact_ok by (rewrite ?H0; auto; lia). reflexivity. }
    rewrite H0. cbn [skipn]. rewrite Nat.min_l by lia.
    destruct (all_zero (firstn size (d_data d))); cbn [negb].
    + reflexivity.
    + erewrite map_err_ok by (apply dev_seek_start_ok; exact Hp). reflexivity.
  - erewrite bind_ok.
    2:{ unfold or_else. rewrite dev_read_exact_eof by (rewrite ?H0; auto; lia). reflexivity. }
    rewrite H0. cbn [skipn fst snd].
    rewrite (firstn_all2 (n := size)) by lia. rewrite Haz, Hz, andb_true_r, Nat.min_r, Nat.sub_0_r by lia.
    destruct (all_zero (d_data d)); cbn [negb].
    + reflexivity.
    + erewrite map_err_ok by (apply dev_seek_start_ok; exact Hp). reflexivity.
Qed.

Lemma decrypt_detached_run : forall E bs pw h b aad v,
  wf_header h -> serialize h = Ok b -> create_aad h = Ok aad ->
  d_plan (w_in v) = [] -> d_plan (w_hdr v) = [] -> d_pos (w_in v) = 0 ->
  at_cursor (w_hdr v) b ->
  decrypt_execute_bs E bs true pw v
  = dec_body E bs pw (reread h) aad
      (mkWorld (if all_zero (firstn (length b) (d_data (w_in v)))
                then set_pos (Nat.min (length b) (length (d_data (w_in v)))) (w_in v)
                else set_pos 0 (w_in v))
         (w_out v) (set_pos (d_pos (w_hdr v) + length b) (w_hdr v)) (w_rng v) (w_tr v)).
Proof.
  intros E bs pw h b aad v Hwf Hs Ha Hi Hh H0 Hat. unfold decrypt_execute_bs.
  assert (Hlen : get_size (ht_version (h_type (reread h))) = length b).
  { rewrite reread_version. symmetry. destruct header_size_exact as (H & _). now apply H. }
  erewrite bind_ok.
  2:{ erewrite bind_ok by (apply map_err_ok, zoom_eq; eapply deserialize_run; eauto).
      erewrite bind_ok by (apply zoom_eq; apply skip_empty_header_run; auto).
      reflexivity. }
  cbn [fst w_in w_out w_hdr w_rng w_tr]. rewrite Hlen. reflexivity.
Qed.

Lemma decrypt_detached_honest : forall E bs pw h b aad mk p ct cs v,
  env_ok E -> 0 < bs -> wf_header h -> ht_mode (h_type h) = StreamMode ->
  serialize h = Ok b -> create_aad h = Ok aad ->
  unlocks E pw h mk -> sealed_body E bs h aad mk p ct cs ->
  d_plan (w_in v) = [] -> d_plan (w_out v) = [] -> d_plan (w_hdr v) = [] ->
  d_pos (w_in v) = 0 -> at_cursor (w_hdr v) b ->
  d_data (w_in v) = zeros (length b) ++ ct
  \/ (d_data (w_in v) = ct /\ all_zero (firstn (length b) ct) = false) ->
  exists v', decrypt_execute_bs E bs true pw v = (Ok tt, v') /\ wrote (w_out v) (w_out v') p.
Proof.
  intros E bs pw h b aad mk p ct cs v HE Hbs Hwf Hm Hs Ha Hu Hb Hi Ho Hh H0 Hat Hd.
  rewrite (decrypt_detached_run E bs pw h b aad v Hwf Hs Ha Hi Hh H0 Hat).
  match goal with |- exists v', dec_body _ _ _ _ _ ?w = _ /\ _ => set (w1 := w) end.
  destruct (dec_body_honest E bs pw (reread h) aad mk p ct cs w1) as (w' & D1 & D2 & D3); auto.
  - now apply reread_shape.
  - now rewrite reread_type.
  - now apply reread_unlocks.
  - destruct Hb as (bl & last & Hb). exists bl, last. now rewrite reread_type, reread_nonce.
  - cbn [w_in w1]. destruct (all_zero (firstn (length b) (d_data (w_in v)))); exact Hi.
  - unfold rest. cbn [w_in w1].
    destruct Hd as [Hd|(Hd & Hz)].
    + rewrite Hd, firstn_app_exact by (symmetry; apply zeros_length).
      assert (Hz : all_zero (zeros (length b)) = true) by (generalize (length b); induction n; cbn; auto).
      rewrite Hz, app_length, zeros_length, Nat.min_l by lia.
      cbn [d_pos d_data set_pos]. rewrite Hd. apply skipn_app_exact. symmetry. apply zeros_length.
    + rewrite Hd, Hz. cbn [d_pos d_data set_pos skipn]. exact Hd.
  - exists w'. split; [exact D1|exact D2].
Qed.

Lemma wrote_rewound_trans : forall d d1 d' a b, d1 = put_at a (set_pos 0 d) ->
  wrote d1 d' b -> wrote (set_pos 0 d) d' (a ++ b).
Proof. intros d d1 d' a b -> H. eapply wrote_trans; [apply put_at_wrote|exact H]. Qed.

(** A supported request on well-behaved devices. *)
Lemma encrypt_execute_result : forall E bs req w key,
  env_ok E -> 0 < bs -> bs <= BLOCK_SIZE ->
  let t := er_header_type req in
  let p := d_data (w_in w) in
  ht_mode t = StreamMode ->
  (forall r wrapped, length wrapped = 48 -> wf_header (e_header req r wrapped)) ->
  d_plan (w_in w) = [] -> d_plan (w_out w) = [] ->
  (er_detached req = true -> d_plan (w_hdr w) = []) ->
  hash E (er_hashing_algorithm req) (er_raw_key req) (e_salt (w_rng w)) = Ok key ->
  exists wrapped b aad,
    let h := e_header req (w_rng w) wrapped in
    aead_enc E (ht_algorithm t) key (e_mk_nonce (ht_algorithm t) (w_rng w)) [] (e_master (w_rng w))
      = Some wrapped
    /\ wf_header h /\ serialize h = Ok b /\ create_aad h = Ok aad
    /\ unlocks E (er_raw_key req) h (e_master (w_rng w))
    /\ if (N.of_nat (length p / bs) <=? counter_max E)%N then
         exists w' ct cs, encrypt_execute_bs E bs req w = (Ok tt, w')
         /\ sealed_body E bs h aad (e_master (w_rng w)) p ct cs
         /\ d_data (w_in w') = p
         /\ w_tr w' = w_tr w ++ Sealed (e_wrap (ht_algorithm t) key (w_rng w) wrapped) :: map Sealed cs
         /\ (if er_detached req
             then wrote (set_pos 0 (w_out w)) (w_out w') ct
                  /\ w_hdr w' = put_at b (set_pos 0 (w_hdr w))
             else wrote (set_pos 0 (w_out w)) (w_out w') (b ++ ct)
                  /\ w_hdr w' = w_hdr w)
       else exists w', encrypt_execute_bs E bs req w = (Err EncEncryptFile, w').
Proof.
  intros E bs req w key HE Hbs Hbs' t p Hm Hwf Hi Ho Hh Hk.
  pose proof (encrypt_execute_cases E bs req w HE) as C. cbv zeta in C.
  rewrite Hk in C. destruct C as (wrapped & r' & C1 & C2 & C3 & C4). fold t in C2, C4.
  rewrite Hm in C4.
  set (h := e_header req (w_rng w) wrapped) in *.
  assert (Hwh : wf_header h) by (apply Hwf; exact C3).
  destruct (header_round_trip h Hwh) as (b & Hb & _).
  destruct (parse_serialize h b Hwh Hb) as (aad & _ & Ha).
  exists wrapped, b, aad. cbv zeta. split; [exact C2|]. split; [exact Hwh|].
  split; [exact Hb|]. split; [exact Ha|]. split.
  { unfold unlocks. cbn [h h_type e_header h_keyslots h_salt].
    assert (Hso : slot_opens E (ht_algorithm t) (er_raw_key req)
       (mkSlot (er_hashing_algorithm req) wrapped (e_mk_nonce (ht_algorithm t) (w_rng w)) (e_salt (w_rng w)))
       (e_master (w_rng w))).
    { exists key. split; [exact Hk|]. cbn [ks_nonce ks_enc]. eapply aead_correct; eauto. }
    destruct Hwh as [(W1 & _ & W2 & _)|[(W1 & _)|(W1 & _)]]; cbn [h e_header h_type] in W1; rewrite W1.
    - cbn in W2. discriminate W2.
    - exists [], (mkSlot (er_hashing_algorithm req) wrapped (e_mk_nonce (ht_algorithm t) (w_rng w)) (e_salt (w_rng w))), [].
      split; [reflexivity|]. split; [exact Hso|intros ? []].
    - exists [], (mkSlot (er_hashing_algorithm req) wrapped (e_mk_nonce (ht_algorithm t) (w_rng w)) (e_salt (w_rng w))), [].
      split; [reflexivity|]. split; [exact Hso|intros ? []]. }
  set (w1 := mkWorld (w_in w) (w_out w) (w_hdr w) r'
               (w_tr w ++ [Sealed (e_wrap (ht_algorithm t) key (w_rng w) wrapped)])) in *.
  rewrite (enc_tail_run E bs (er_detached req) h (e_stream t (w_rng w)) b aad w1 Hb Ha) in C4 by auto.
  set (w2 := body_world (er_detached req) b w1) in *.
  assert (Hr : rest (w_in w2) = p) by reflexivity.
  assert (Hsk : stream_ok (e_stream t (w_rng w)) (e_master (w_rng w)) (e_nonce t (w_rng w)) (ht_algorithm t)).
  { unfold stream_ok, e_stream. split; [reflexivity|]. split; [apply draw_length|].
    unfold e_nonce. now rewrite draw_length, Hm. }
  pose proof (encrypt_file_result E bs _ _ _ _ aad w2 HE Hbs Hbs' Hsk) as R.
  cbv zeta in R. rewrite Hr in R.
  destruct (N.leb_spec (N.of_nat (length p / bs)) (counter_max E)).
  - destruct R as (w' & ct & R1 & R2 & R3 & R4 & R5 & bl & last & cs & R6 & R7 & R8 & R9 & R10 & R11).
    { apply aad_length in Ha; auto. lia. }
    { exact Hi. }
    { unfold w2, body_world. cbn [w_out]. destruct (er_detached req); exact Ho. }
    exists w', ct, cs. split.
    { rewrite C4. apply map_err_ok. exact R1. }
    split. { exists bl, last. auto. }
    destruct R4 as (F1 & F2 & F3 & F4 & F5 & F6).
    split; [rewrite F1; reflexivity|]. split.
    { rewrite R11. unfold w2, body_world, w1. cbn [w_tr]. now rewrite <- app_assoc. }
    unfold w2, body_world, w1 in R3, F3. cbn [w_out w_hdr] in R3, F3.
    destruct (er_detached req).
    + split; [exact R3|exact F3].
    + split; [|exact F3]. eapply wrote_rewound_trans; [reflexivity|exact R3].
  - destruct R as (w' & R1).
    { apply aad_length in Ha; auto. lia. }
    { exact Hi. }
    { unfold w2, body_world. cbn [w_out]. destruct (er_detached req); exact Ho. }
    exists w'. rewrite C4. apply (map_err_err (fun _ => EncEncryptFile) _ _ _ _ R1).
Qed.

(** ** Arbitrary inputs and devices *)

(** The keyslot opening made on the way to master key [mk]. *)
Definition key_calls (E : env) (pw : bytes) (h : header) (mk : bytes) (kc : list call) : Prop :=
  match ht_version (h_type h) with
  | V4 | V5 =>
      exists l k key, h_keyslots h = Some l /\ In k l
        /\ hash E (ks_hash k) pw (ks_salt k) = Ok key
        /\ aead_dec E (ht_algorithm (h_type h)) key (ks_nonce k) [] (ks_enc k) = Some mk
        /\ kc = [mkCall (ht_algorithm (h_type h)) key (ks_nonce k) [] mk (ks_enc k)]
  | _ => kc = []
  end.

(** The openings of the body; [d] and [d'] are the input before and after. *)
Definition body_calls (E : env) (bs : nat) (h : header) (aad mk : bytes)
  (ok : Prop) (d d' : dev) (bc : list call) : Prop :=
  let a := ht_algorithm (h_type h) in
  match ht_mode (h_type h) with
  | StreamMode =>
      exists bl last, dec_run E aad (mkStream a mk (h_nonce h) 0) bl last bc
        /\ Forall (fun b => length b = bs + 16) bl
        /\ (ok -> exists lb, last = Some lb /\ consumed d d' = concat bl ++ lb
                   /\ (no_short (d_plan d) -> rest d = concat bl ++ lb)
                   /\ length lb < bs + 16)
  | MemoryMode =>
      (bc = [] \/ exists m, aead_dec E a mk (h_nonce h) aad (rest d) = Some m
                  /\ bc = [mkCall a mk (h_nonce h) aad m (rest d)])
  end.

Definition dec_ended (E : env) (bs : nat) (pw : bytes) (h : header) (aad : bytes)
  (w : world) (o : outcome dec_error unit) (w' : world) : Prop :=
  d_data (w_in w') = d_data (w_in w) /\ d_log (w_in w') = d_log (w_in w)
  /\ w_hdr w' = w_hdr w
  /\ (o = Ok tt \/ exists e, o = Err e)
  /\ exists written kc bc,
       w_tr w' = w_tr w ++ map Opened (kc ++ bc)
       /\ wrote (w_out w) (w_out w') written
       /\ prefix_of written (concat (map c_msg bc))
       /\ (o = Ok tt \/ d_plan (w_out w) = [] -> written = concat (map c_msg bc))
       /\ (o = Ok tt -> bc <> [])
       /\ ((kc = [] /\ bc = [] /\ w_out w' = w_out w)
           \/ exists mk, unlocks E pw h mk /\ length mk = 32
                /\ key_calls E pw h mk kc
                /\ body_calls E bs h aad mk (o = Ok tt) (w_in w) (w_in w') bc).

Lemma wrote_refl : forall d, wrote d d [].
Proof. intros. apply wrote_nil; auto. Qed.

Lemma dec_body_spec : forall E bs pw h aad w o w',
  env_ok E -> header_shape h ->
  dec_body E bs pw h aad w = (o, w') -> dec_ended E bs pw h aad w o w'.
Proof.
  intros E bs pw h aad w o w' HE Hsh H. unfold dec_body in H. cbv zeta in H.
  assert (Hnone : forall w2 e, d_data (w_in w2) = d_data (w_in w) -> d_log (w_in w2) = d_log (w_in w) ->
            w_out w2 = w_out w -> w_hdr w2 = w_hdr w -> w_tr w2 = w_tr w ->
            (o, w') = (Err e, w2) -> dec_ended E bs pw h aad w o w').
  { intros w2 e E1 E2 E3 E4 E5 Heq. inversion Heq; subst o w'. unfold dec_ended. parts; auto; [eauto|].
    exists [], [], []. cbn [app map concat]. rewrite app_nil_r, E3. parts; auto; try discriminate.
    - apply wrote_refl. - apply prefix_refl. }
  destruct (ht_mode (h_type h)) eqn:Hm.
  - apply bind_inv in H as [(data & w1 & H1 & H)|[(e & H1 & ->)|[(H1 & ->)|(H1 & ->)]]];
      apply map_err_inv in H1 as [(x1 & H1 & X1)|[(e1 & H1 & X1)|[(H1 & X1)|(H1 & X1)]]];
      try discriminate X1; apply zoom_inv in H1 as (d1 & H1 & ->);
      apply dev_read_to_end_spec in H1 as (R1 & R2 & R3 & R4); try contradiction.
    2:{ eapply Hnone; [..|reflexivity]; auto. }
    assert (Hdata : data = rest (w_in w)) by (unfold rest; congruence). clear X1 R4 x1.
    destruct (decrypt_master_key_spec E pw h (w_tr w) HE Hsh) as [(mk & kc & Hu & Hl & Hd & Hkc)|(Hn & Hd)].
    2:{ erewrite bind_err in H by (apply map_err_err, zoom_eq; exact Hd).
        eapply Hnone; [..|symmetry; exact H]; auto. }
    erewrite bind_ok in H by (apply map_err_ok, zoom_eq; exact Hd).
    erewrite bind_ok in H
      by (apply map_err_ok; unfold lift, ciphers_initialize; rewrite Hl; reflexivity).
    destruct Hsh as (Hns & _). unfold nonce_sized in Hns. rewrite Hm in Hns.
    cbn [w_in w_out w_hdr w_rng w_tr] in H.
    destruct (aead_dec E (ht_algorithm (h_type h)) mk (h_nonce h) aad data) as [m|] eqn:Hdec.
    + erewrite bind_ok in H.
      2:{ apply map_err_ok, zoom_eq. unfold ciphers_decrypt. cbn [ci_alg ci_key].
          rewrite Hns, Nat.eqb_refl, Hdec. reflexivity. }
      cbn [w_in w_out w_hdr w_rng w_tr] in H.
      assert (Hgo : exists written,
          d_data (w_in w') = d_data (w_in w) /\ d_log (w_in w') = d_log (w_in w)
          /\ w_hdr w' = w_hdr w /\ (o = Ok tt \/ exists e, o = Err e)
          /\ w_tr w' = w_tr w ++ map Opened (kc ++ [mkCall (ht_algorithm (h_type h)) mk (h_nonce h) aad m data])
          /\ wrote (w_out w) (w_out w') written /\ prefix_of written m
          /\ (o = Ok tt \/ d_plan (w_out w) = [] -> written = m)).
      { rewrite map_app, app_assoc.
        apply map_err_inv in H as [(x2 & H & ->)|[(e2 & H & ->)|[(H & ->)|(H & ->)]]];
          apply zoom_inv in H as (d2 & H & ->); cbn [w_in w_out w_hdr w_rng w_tr] in *;
          apply dev_write_all_spec in H as (W1 & W2); try contradiction.
        - exists m. destruct x2. parts; auto. apply prefix_refl.
        - destruct W2 as ((k & K1 & K2) & K3). exists (firstn k m). parts; auto; eauto.
          + apply prefix_firstn.
          + intros [Hx|Hx]; [discriminate|congruence]. }
      destruct Hgo as (written & G1 & G2 & G3 & G4 & G5 & G6 & G7 & G8).
      unfold dec_ended. parts; auto.
      exists written, kc, [mkCall (ht_algorithm (h_type h)) mk (h_nonce h) aad m data].
      cbn [map concat c_msg]. rewrite app_nil_r. parts; auto; [discriminate|].
      right. exists mk. split; [exact Hu|]. split; [exact Hl|]. split; [exact Hkc|].
      unfold body_calls. rewrite Hm. right. exists m. rewrite <- Hdata. auto.
    + erewrite bind_err in H.
      2:{ apply map_err_err, zoom_eq. unfold ciphers_decrypt. cbn [ci_alg ci_key].
          rewrite Hns, Nat.eqb_refl, Hdec. reflexivity. }
      inversion H; subst o w'. unfold dec_ended. cbn [w_in w_out w_hdr w_rng w_tr]. parts; auto; [eauto|].
      exists [], kc, []. cbn [map concat]. rewrite app_nil_r. parts; auto; try discriminate.
      * apply wrote_refl.
      * apply prefix_refl.
      * right. exists mk. split; [exact Hu|]. split; [exact Hl|]. split; [exact Hkc|].
        unfold body_calls. rewrite Hm. left. reflexivity.
  - destruct (decrypt_master_key_spec E pw h (w_tr w) HE Hsh) as [(mk & kc & Hu & Hl & Hd & Hkc)|(Hn & Hd)].
    2:{ erewrite bind_err in H by (apply map_err_err, zoom_eq; exact Hd).
        eapply Hnone; [..|symmetry; exact H]; auto. }
    erewrite bind_ok in H by (apply map_err_ok, zoom_eq; exact Hd).
    pose proof Hsh as (Hns & _). unfold nonce_sized in Hns. rewrite Hm in Hns.
    erewrite bind_ok in H
      by (apply map_err_ok; unfold lift; rewrite dec_init_complete by assumption; reflexivity).
    destruct (decrypt_file_bs E bs (mkStream (ht_algorithm (h_type h)) mk (h_nonce h) 0) aad
                (mkWorld (w_in w) (w_out w) (w_hdr w) (w_rng w) (w_tr w ++ map Opened kc))) as [o1 w1] eqn:Hf.
    assert (Hw : w' = w1 /\ o = match o1 with Ok u => Ok u | Err _ => Err DecDecryptData
                                | Panic => Panic | Diverge => Diverge end).
    { unfold map_err in H. rewrite Hf in H. destruct o1; inversion H; auto. }
    destruct Hw as (-> & ->). clear H.
    apply decrypt_file_spec in Hf.
    destruct Hf as (F & bl & last & bc & written & n & D1 & D2 & D3 & D4 & D5 & D6 & D7 & D8).
    destruct F as (F1 & F2 & F3 & _). cbn [w_in w_out w_hdr w_rng w_tr] in *.
    unfold dec_ended. parts; auto.
    { destruct o1 as [[]|e| |]; eauto; contradiction. }
    exists written, kc, bc. parts; auto.
    + rewrite map_app, app_assoc. exact D4.
    + intros Hx. destruct o1 as [[]|[]| |]; try contradiction; try tauto;
        destruct Hx as [Hx|Hx]; try discriminate; try tauto; contradiction.
    + intros Hx. destruct o1 as [[]|e| |]; try discriminate. destruct D8 as (_ & (lb & ->) & _).
      inversion D1; discriminate.
    + right. exists mk. split; [exact Hu|]. split; [exact Hl|]. split; [exact Hkc|].
      unfold body_calls. rewrite Hm. exists bl, last. split; [exact D1|]. split; [exact D2|].
      intros Hx. destruct o1 as [[]|e| |]; try discriminate. destruct D8 as (_ & (lb & ->) & D8 & D9).
      exists lb. split; [reflexivity|]. cbn [opt_bytes] in *. split.
      * eapply consumed_eq; [exact D8|exact D7].
      * split; [intros Hns'; symmetry; exact (D9 Hns')|apply D3; reflexivity].
Qed.

(** The device the header is read from. *)
Definition dec_header (detached : bool) : M world dec_error (header * bytes) :=
  if detached then
    ha <- map_err (fun _ => DecDeserializeHeader) (on_hdr deserialize) ;;
    on_in (skip_empty_header (get_size (ht_version (h_type (fst ha))))) ;;
    ret ha
  else map_err (fun _ => DecDeserializeHeader) (on_in deserialize).

Lemma decrypt_execute_eq : forall E bs detached pw,
  decrypt_execute_bs E bs detached pw
  = bind (dec_header detached) (fun ha => let '(h, aad) := ha in dec_body E bs pw h aad).
Proof. reflexivity. Qed.

Lemma decrypt_execute_spec : forall E bs detached pw v o v',
  env_ok E ->
  decrypt_execute_bs E bs detached pw v = (o, v') ->
  (exists e, o = Err e /\ w_out v' = w_out v /\ w_tr v' = w_tr v
     /\ d_data (w_in v') = d_data (w_in v) /\ d_data (w_hdr v') = d_data (w_hdr v))
  \/ exists h aad d1 v1,
       deserialize (header_source detached v) = (Ok (h, aad), d1)
       /\ header_shape h
       /\ w_out v1 = w_out v /\ w_tr v1 = w_tr v /\ d_data (w_in v1) = d_data (w_in v)
       /\ d_data (w_hdr v1) = d_data (w_hdr v)
       /\ (detached = false -> w_in v1 = d1)
       /\ dec_ended E bs pw h aad v1 o v'.
Proof.
  intros E bs detached pw v o v' HE H. rewrite decrypt_execute_eq in H.
  apply bind_inv in H as [((h & aad) & v1 & H1 & H)|Hbad].
  - right. exists h, aad.
    assert (Hx : exists d1, deserialize (header_source detached v) = (Ok (h, aad), d1)
              /\ w_out v1 = w_out v /\ w_tr v1 = w_tr v /\ d_data (w_in v1) = d_data (w_in v)
              /\ d_data (w_hdr v1) = d_data (w_hdr v)
              /\ (detached = false -> w_in v1 = d1)).
    { unfold dec_header in H1. destruct detached; cbn [header_source].
      - apply bind_inv in H1 as [((h' & aad') & v2 & H2 & H1)|[(e & _ & Hx)|[(_ & Hx)|(_ & Hx)]]]; try discriminate.
        apply map_err_inv in H2 as [(x & H2 & X)|[(e & _ & X)|[(_ & X)|(_ & X)]]]; try discriminate.
        assert (x = (h', aad')) by congruence. subst x.
        apply zoom_inv in H2 as (d1 & H2 & ->).
        apply bind_inv in H1 as [(u & v3 & H3 & H1)|[(e & _ & Hx)|[(_ & Hx)|(_ & Hx)]]]; try discriminate.
        unfold ret in H1. injection H1 as -> -> ->.
        apply zoom_inv in H3 as (d3 & H3 & ->). cbn [w_in w_out w_hdr w_rng w_tr] in *.
        exists d1. parts; auto; [|apply deserialize_spec in H2; tauto|discriminate].
        unfold skip_empty_header in H3.
        apply bind_inv in H3 as [(b & d4 & H4 & H3)|[(e & _ & Hx)|[(_ & Hx)|(_ & Hx)]]]; try discriminate.
        assert (D4 : d_data d4 = d_data (w_in v)).
        { unfold or_else in H4.
          destruct (dev_read_exact _ (w_in v)) as [o4 d5] eqn:H5.
          apply dev_read_exact_spec in H5 as (A & _). 
          destruct o4 as [x|[e x]| |]; try (inversion H4; subst; exact A).
          cbn [fst snd] in H4. destruct e; inversion H4; subst; exact A. }
        destruct (negb (all_zero b)).
        + apply map_err_inv in H3 as [(x3 & H3 & _)|[(e & _ & X3)|[(_ & X3)|(_ & X3)]]]; try discriminate.
          apply dev_seek_start_spec in H3 as (_ & A & _). congruence.
        + inversion H3; subst. exact D4.
      - apply map_err_inv in H1 as [(x & H1 & X)|[(e & _ & X)|[(_ & X)|(_ & X)]]]; try discriminate.
        assert (x = (h, aad)) by congruence. subst x.
        apply zoom_inv in H1 as (d1 & H1 & ->). exists d1. cbn [w_in w_out w_hdr w_rng w_tr].
        parts; auto. apply deserialize_spec in H1. tauto. }
    destruct Hx as (d1 & X1 & X2 & X3 & X4 & X5 & X6). exists d1, v1.
    pose proof (deserialize_shape _ _ _ _ X1) as Hsh.
    parts; auto. now apply dec_body_spec.
  - left.
    assert (Hb : exists o1, dec_header detached v = (o1, v')
        /\ (o1 = Panic /\ o = Panic \/ o1 = Diverge /\ o = Diverge \/ exists e, o1 = Err e /\ o = Err e)).
    { destruct Hbad as [(e & Hb & ->)|[(Hb & ->)|(Hb & ->)]]; eexists; (split; [exact Hb|]); eauto. }
    clear Hbad. destruct Hb as (o1 & Hb & Ho). unfold dec_header in Hb.
    destruct detached.
    + apply bind_inv in Hb as [((h' & aad') & v2 & H2 & H1)|[(e & H2 & Hx)|[(H2 & Hx)|(H2 & Hx)]]];
        apply map_err_inv in H2 as [(x & H2 & X)|[(e' & H2 & X)|[(H2 & X)|(H2 & X)]]]; try discriminate X;
        apply zoom_inv in H2 as (d1 & H2 & ->);
        apply deserialize_spec in H2 as (Z1 & Z2 & _ & Z3); try contradiction.
      * apply bind_inv in H1 as [(u & v3 & H3 & H1)|H3].
        { inversion H1; subst. destruct Ho as [(Hx & _)|[(Hx & _)|(e & Hx & _)]]; discriminate. }
        assert (Hb : exists o2, on_in (skip_empty_header (get_size (ht_version (h_type (fst (h', aad'))))))
                    (mkWorld (w_in v) (w_out v) d1 (w_rng v) (w_tr v)) = (o2, v')
              /\ (o2 = Panic \/ o2 = Diverge \/ exists e, o2 = Err e /\ o1 = Err e)).
        { destruct H3 as [(e & Hb & ->)|[(Hb & ->)|(Hb & ->)]]; eexists; (split; [exact Hb|]); eauto. }
        clear H3. destruct Hb as (o2 & Hb & Ho2).
        apply zoom_inv in Hb as (d3 & H3 & ->). cbn [w_in w_out w_hdr w_rng w_tr] in *.
        assert (Hd3 : d_data d3 = d_data (w_in v) /\ o2 <> Panic /\ o2 <> Diverge).
        { unfold skip_empty_header in H3.
          apply bind_inv in H3 as [(b & d4 & H4 & H3)|H4].
          - assert (D4 : d_data d4 = d_data (w_in v)).
            { unfold or_else in H4.
              destruct (dev_read_exact _ (w_in v)) as [o4 d5] eqn:H5.
              apply dev_read_exact_spec in H5 as (A & _).
              destruct o4 as [x'|[e x']| |]; try (inversion H4; subst; exact A).
              cbn [fst snd] in H4. destruct e; inversion H4; subst; exact A. }
            destruct (negb (all_zero b)).
            + apply map_err_inv in H3 as [(x3 & H3 & ->)|[(e & H3 & ->)|[(H3 & ->)|(H3 & ->)]]];
                apply dev_seek_start_spec in H3 as (_ & A & _ & A3); try contradiction;
                (split; [congruence|split; discriminate]).
            + inversion H3; subst. split; [exact D4|split; discriminate].
          - assert (H5 : exists o5, or_else (dev_read_exact (get_size (ht_version (h_type h'))))
                (fun e => match fst e with
                  | EUnexpectedEof => ret (snd e ++ zeros (get_size (ht_version (h_type h')) - length (snd e)))
                  | _ => err DecReadEncryptedData
                  end) (w_in v) = (o5, d3) /\ (forall x, o5 <> Ok x)
                  /\ (o5 = Panic /\ o2 = Panic \/ o5 = Diverge /\ o2 = Diverge \/ exists e, o2 = Err e)).
            { destruct H4 as [(e & Hb & ->)|[(Hb & ->)|(Hb & ->)]]; eexists;
                (split; [exact Hb|]); (split; [discriminate|]); eauto. }
            destruct H5 as (o5 & H5 & Hno & H6). unfold or_else in H5.
            destruct (dev_read_exact _ (w_in v)) as [o4 d5] eqn:H7.
            apply dev_read_exact_spec in H7 as (A & _ & _ & A2).
            destruct o4 as [x'|[e x']| |]; try contradiction.
            + inversion H5; subst. exfalso. eapply Hno; reflexivity.
            + cbn [fst snd] in H5.
              destruct e; inversion H5; subst; try (exfalso; eapply Hno; reflexivity);
                (split; [exact A|]); destruct H6 as [(Hx & _)|[(Hx & _)|(e & ->)]];
                try discriminate Hx; split; discriminate. }
        destruct Hd3 as (Hd3 & Hp & Hd).
        destruct Ho2 as [->|[->|(e & -> & ->)]]; try contradiction.
        destruct Ho as [(Hx & _)|[(Hx & _)|(e1 & Hx & ->)]]; try discriminate Hx.
        exists e1. cbn [w_in w_out w_hdr w_rng w_tr]. auto.
      * subst o1. destruct Ho as [(Hx & _)|[(Hx & _)|(e1 & Hx & ->)]]; try discriminate Hx.
        exists e1. cbn [w_in w_out w_hdr w_rng w_tr]. auto.
    + apply map_err_inv in Hb as [(x & H2 & X)|[(e' & H2 & X)|[(H2 & X)|(H2 & X)]]];
        apply zoom_inv in H2 as (d1 & H2 & ->);
        apply deserialize_spec in H2 as (Z1 & Z2 & _ & Z3); try contradiction; subst o1.
      * destruct Ho as [(Hx & _)|[(Hx & _)|(e1 & Hx & ->)]]; discriminate Hx.
      * destruct Ho as [(Hx & _)|[(Hx & _)|(e1 & Hx & ->)]]; try discriminate Hx.
        exists e1. cbn [w_in w_out w_hdr w_rng w_tr]. auto.
Qed.

(** ** Integrity *)

Lemma create_aad_tag : forall h aad, create_aad h = Ok aad ->
  firstn 6 aad = tag_bytes (h_type h) /\ ~ In (ht_version (h_type h)) [V1; V2].
Proof.
  intros h aad H.
  assert (T : forall x, firstn 6 (tag_bytes (h_type h) ++ x) = tag_bytes (h_type h))
    by (intros; apply firstn_app_exact; symmetry; apply tag_bytes_length).
  unfold create_aad in H. destruct (ht_version (h_type h)) eqn:Hv; try discriminate.
  - unfold serialize_v3 in H. destruct (h_salt h); [|discriminate]. apply Ok_inj in H. subst aad.
    split; [apply T|]. cbn. intuition discriminate.
  - destruct (h_keyslots h) as [[|k l]|]; try discriminate. apply Ok_inj in H. subst aad.
    split; [apply T|]. cbn. intuition discriminate.
  - apply Ok_inj in H. subst aad. split; [apply T|]. cbn. intuition discriminate.
Qed.

Lemma parsed_aad_tag : forall d h aad d', deserialize d = (Ok (h, aad), d') ->
  match ht_version (h_type h) with
  | V1 | V2 => aad = []
  | _ => firstn 6 aad = tag_bytes (h_type h)
  end.
Proof.
  intros d h aad d' H. apply accepted_inv in H. cbv zeta in H. destruct H as (L & T & A & _).
  set (full := firstn (get_size (ht_version (h_type h))) (skipn (d_pos d) (d_data d))) in *.
  unfold parse_aad in A. destruct (ht_version (h_type h)); auto; subst aad; auto.
  - rewrite firstn_app. replace (6 - length (firstn 48 full)) with 0
      by (rewrite firstn_length, L; cbn; lia).
    rewrite firstn_O, app_nil_r, firstn_firstn. exact T.
  - rewrite firstn_firstn. exact T.
Qed.

Lemma firstn_min_self : forall {A} n (l : list A), firstn (Nat.min n (length l)) l = firstn n l.
Proof. intros A n l. rewrite <- firstn_firstn. now rewrite firstn_all. Qed.

Lemma encrypt_ok_inv : forall E bs req w u w',
  env_ok E -> 0 < bs -> encrypt_execute_bs E bs req w = (Ok u, w') ->
  let t := er_header_type req in
  let r := w_rng w in
  let p := firstn (d_pos (w_in w')) (d_data (w_in w)) in
  exists key wrapped b aad ct cs k,
    let h := e_header req r wrapped in
    hash E (er_hashing_algorithm req) (er_raw_key req) (e_salt r) = Ok key
    /\ aead_enc E (ht_algorithm t) key (e_mk_nonce (ht_algorithm t) r) [] (e_master r) = Some wrapped
    /\ length wrapped = 48
    /\ ht_mode t = StreamMode
    /\ In (ht_version t) [V4; V5]
    /\ serialize h = Ok b /\ create_aad h = Ok aad
    /\ sealed_body E bs h aad (e_master r) p ct cs
    /\ w_tr w' = w_tr w ++ Sealed (e_wrap (ht_algorithm t) key r wrapped) :: map Sealed cs
    /\ d_data (w_in w') = d_data (w_in w)
    /\ (no_short (d_plan (w_in w)) -> p = d_data (w_in w))
    /\ k <= length b
    /\ if er_detached req
       then wrote (set_pos 0 (w_hdr w)) (w_hdr w') (firstn k b)
            /\ wrote (set_pos 0 (w_out w)) (w_out w') ct
            /\ (no_short (d_plan (w_hdr w)) -> k = length b)
       else wrote (set_pos 0 (w_out w)) (w_out w') (firstn k b ++ ct)
            /\ w_hdr w' = w_hdr w
            /\ (no_short (d_plan (w_out w)) -> k = length b).
Proof.
  intros E bs req w u w' HE Hbs H t r p.
  pose proof (encrypt_execute_cases E bs req w HE) as C. cbv zeta in C. fold t r in C.
  destruct (hash_cases E (er_hashing_algorithm req) (er_raw_key req) (e_salt r)) as [(key & Hk)|Hk];
    rewrite Hk in C.
  2:{ destruct C as (w1 & C & _). rewrite H in C. discriminate C. }
  destruct C as (wrapped & r' & C1 & C2 & C3 & C4). rewrite H in C4.
  destruct (ht_mode t) eqn:Hm; [discriminate C4|].
  set (h := e_header req r wrapped) in *.
  symmetry in C4. apply enc_tail_inv in C4.
  destruct C4 as (b & aad & k & w2 & T1 & T2 & T3 & T4 & T5 & T6 & T7 & T8 & T9 & T10 & T11 & T12).
  cbn [w_in w_out w_hdr w_rng w_tr] in *.
  apply encrypt_file_spec in T4; [|exact Hbs].
  destruct T4 as (F & bl & last & cs & ct & n & G1 & G2 & G3 & G4 & G5 & G6 & G7 & K1 & (lb & ->) & K3 & K4).
  cbn [opt_bytes] in *. specialize (G3 lb eq_refl).
  destruct F as (F1 & F2 & F3 & _).
  assert (Hp : p = concat bl ++ lb).
  { unfold p. rewrite K3, T8, <- T7. cbn [Nat.add].
    unfold in_rest in G7. rewrite T8 in G7. cbn [skipn] in G7. rewrite G7.
    rewrite firstn_length, firstn_min_self. reflexivity. }
  exists key, wrapped, b, aad, ct, cs, k. cbv zeta. fold h.
  split; [exact Hk|]. split; [exact C2|]. split; [exact C3|]. split; [reflexivity|]. split.
  { destruct (create_aad_tag _ _ T2) as (_ & Hv). unfold h in Hv, T1. cbn [e_header h_type] in Hv. fold t in Hv.
    unfold serialize in T1. cbn [h e_header h_type] in T1. fold t in T1.
    destruct (ht_version t) eqn:Hver; cbn in *; try tauto.
    unfold serialize_v3 in T1. cbn in T1. discriminate T1. }
  split; [exact T1|]. split; [exact T2|]. split.
  { exists bl, lb. parts; auto. }
  split. { rewrite G4, T5, <- app_assoc. reflexivity. }
  split; [congruence|]. split.
  { intros Hns. rewrite Hp, (K4 (T9 Hns)). unfold in_rest. rewrite T8, T7. reflexivity. }
  split; [exact T3|].
  destruct (er_detached req).
  - destruct T12 as (W1 & W2 & W3). rewrite F3. split; [exact W1|]. split; [|exact W3].
    change ct with ([] ++ ct). eapply wrote_trans; eauto.
  - destruct T12 as (W1 & W2 & W3). rewrite F3. split; [|auto]. eapply wrote_trans; eauto.
Qed.

Lemma sealed_app : forall a b, sealed (a ++ b) = sealed a ++ sealed b.
Proof. intros. unfold sealed. apply flat_map_app. Qed.
Lemma opened_app : forall a b, opened (a ++ b) = opened a ++ opened b.
Proof. intros. unfold opened. apply flat_map_app. Qed.

Lemma file_integrity : forall E bs req w w' detached pw' v o v',
  env_ok E -> 0 < bs -> w_tr w = [] -> w_tr v = [] ->
  encrypt_execute_bs E bs req w = (Ok tt, w') ->
  decrypt_execute_bs E bs detached pw' v = (o, v') ->
  let r := w_rng w in
  let p := firstn (d_pos (w_in w')) (d_data (w_in w)) in
  exists written, wrote (w_out v) (w_out v') written /\
  ((exists c, In c (opened (w_tr v')) /\ forgery E (w_tr w') c)
   \/ (exists i s2 key, In i [1; 2]%Z /\ hash E (Argon2id i) pw' s2 = Ok key
         /\ hash E (er_hashing_algorithm req) (er_raw_key req) (draw r 0 16) = Ok key)
   \/ (prefix_of written p
       /\ (d_plan (w_out v) = [] -> written = p \/ exists n, written = firstn (n * bs) p)
       /\ (o = Ok tt ->
             written = p
             /\ exists h aad d1 d2,
                  deserialize (header_source detached v) = (Ok (h, aad), d1)
                  /\ h_type h = er_header_type req /\ h_nonce h = e_nonce (er_header_type req) r
                  /\ unlocks E pw' h (e_master r)
                  /\ (exists l k key, h_keyslots h = Some l /\ In k l
                        /\ hash E (ks_hash k) pw' (ks_salt k) = Ok key
                        /\ hash E (er_hashing_algorithm req) (er_raw_key req) (draw r 0 16) = Ok key)
                  /\ d_data d2 = d_data (w_in v) /\ (detached = false -> d2 = d1)
                  /\ consumed d2 (w_in v') = concat (map c_ct (tl (sealed (w_tr w'))))))).
Proof.
  intros E bs req w w' detached pw' v o v' HE Hbs Htr Htr' He Hd r p.
  apply encrypt_ok_inv in He; auto. cbv zeta in He.
  destruct He as (key & wrapped & b & aad & ct & cs & k & Hk & Hw & Hwl & Hm & Hver & Hs & Ha & Hb & Htw & _).
  fold r in Hk, Hw, Hs, Ha, Hb, Htw.
  set (t := er_header_type req) in *. set (h := e_header req r wrapped) in *.
  rewrite Htr in Htw. cbn [app] in Htw.
  assert (HS : sealed (w_tr w') = e_wrap (ht_algorithm t) key r wrapped :: cs).
  { rewrite Htw. cbn [sealed flat_map app]. f_equal. apply sealed_map. }
  destruct Hb as (bl & lb & Hrun & Hbl & Hlb & Hp & Hct). fold p in Hp.
  pose proof (enc_run_calls _ _ _ _ _ _ Hrun) as (A & B & C).
  destruct (create_aad_tag h aad Ha) as (Htag & _).
  apply decrypt_execute_spec in Hd; [|exact HE].
  destruct Hd as [(e & -> & Ho & _)|(h' & aad' & d1 & v1 & D1 & Hsh & Ho & Ht & Hin & Hhd & Hd1 & Hend)].
  { exists []. rewrite Ho. split; [apply wrote_refl|]. right. right. split; [exists p; reflexivity|].
    split; [intros; right; exists 0; reflexivity|discriminate]. }
  destruct Hend as (I1 & I2 & I3 & I4 & written & kc & bc & J1 & J2 & J3 & J4 & J5 & J6).
  rewrite Ho in J2, J4. exists written. split; [exact J2|].
  rewrite Ht, Htr' in J1. cbn [app] in J1.
  assert (HO : opened (w_tr v') = kc ++ bc) by (rewrite J1; apply opened_map).
  (* nothing of the body was accepted *)
  assert (Hnone : bc = [] -> prefix_of written p
       /\ (d_plan (w_out v) = [] -> written = p \/ exists n, written = firstn (n * bs) p)
       /\ (o = Ok tt ->
             written = p
             /\ exists h aad d1 d2,
                  deserialize (header_source detached v) = (Ok (h, aad), d1)
                  /\ h_type h = t /\ h_nonce h = e_nonce t r
                  /\ unlocks E pw' h (e_master r)
                  /\ (exists l k key, h_keyslots h = Some l /\ In k l
                        /\ hash E (ks_hash k) pw' (ks_salt k) = Ok key
                        /\ hash E (er_hashing_algorithm req) (er_raw_key req) (draw r 0 16) = Ok key)
                  /\ d_data d2 = d_data (w_in v) /\ (detached = false -> d2 = d1)
                  /\ consumed d2 (w_in v') = concat (map c_ct (tl (sealed (w_tr w')))))).
  { intros ->. assert (written = []).
    { destruct J3 as (z & J3). cbn in J3. symmetry in J3. apply app_eq_nil in J3. tauto. }
    subst written. split; [exists p; reflexivity|]. split; [intros; right; exists 0; reflexivity|].
    intros Hok. now apply J5 in Hok. }
  destruct J6 as [(-> & -> & _)|(mk & Hu & Hmk & Hkc & Hbc)].
  { right. right. apply Hnone. reflexivity. }
  (* the accepted calls are all authentic, or one is forged *)
  destruct (honest_or_forgery E (w_tr w') (kc ++ bc) HE) as [Hh|Hf].
  { rewrite HS. constructor; [exact Hw|]. eapply Forall_impl; [|exact C]. cbn. tauto. }
  { apply Forall_app. split.
    - unfold key_calls in Hkc. destruct (ht_version (h_type h')); try (subst kc; constructor; fail);
        destruct Hkc as (l & kk & key' & _ & _ & _ & Hdec & ->); (constructor; [exact Hdec|constructor]).
    - unfold body_calls in Hbc. destruct (ht_mode (h_type h')).
      + destruct Hbc as [->|(m & Hdec & ->)]; [constructor|]. constructor; [exact Hdec|constructor].
      + destruct Hbc as (bl' & last' & Hdr & _).
        apply dec_run_calls in Hdr as (_ & _ & C'). eapply Forall_impl; [|exact C']. cbn. tauto. }
  2:{ left. rewrite HO. exact Hf. }
  rewrite HS in Hh.
  (* alg, key and AAD of the body calls *)
  assert (Hbody : forall c, In c bc ->
            c_alg c = ht_algorithm (h_type h') /\ c_key c = mk /\ c_aad c = aad').
  { intros c Hc. unfold body_calls in Hbc. destruct (ht_mode (h_type h')).
    - destruct Hbc as [->|(m & Hdec & ->)]; [destruct Hc|]. destruct Hc as [<-|[]]. auto.
    - destruct Hbc as (bl' & last' & Hdr & _).
      apply dec_run_calls in Hdr as (_ & _ & C'). rewrite Forall_forall in C'.
      specialize (C' c Hc). cbn in C'. tauto. }
  rewrite Forall_forall in C.
  pose proof (parsed_aad_tag _ _ _ _ D1) as Htag'.
  destruct bc as [|c0 bc0].
  { right. right. apply Hnone. reflexivity. }
  assert (Hc0 : In c0 (e_wrap (ht_algorithm t) key r wrapped :: cs)).
  { apply Hh. apply in_or_app. right. now left. }
  destruct (Hbody c0 (or_introl eq_refl)) as (Q1 & Q2 & Q3).
  assert (Hcase : (aad' = [] /\ c0 = e_wrap (ht_algorithm t) key r wrapped
                   /\ exists i s2, In i [1; 2]%Z /\ hash E (Argon2id i) pw' s2 = Ok mk)
                  \/ (aad' <> [] /\ firstn 6 aad' = tag_bytes (h_type h'))).
  { assert (Hne : forall x y, firstn 6 x = tag_bytes y -> x <> []).
    { intros x y Hx ->. apply (f_equal (@length byte)) in Hx. rewrite tag_bytes_length in Hx.
      cbn in Hx. discriminate. }
    unfold unlocks in Hu.
    destruct (ht_version (h_type h')); try (right; split; [eapply Hne; exact Htag'|exact Htag']); left.
    - split; [exact Htag'|]. destruct Hu as (s2 & _ & Hu). split.
      + destruct Hc0 as [Hc0|Hc0]; [now symmetry|]. exfalso.
        destruct (C c0 Hc0) as (_ & _ & C3 & _). apply (Hne aad (h_type h) Htag). congruence.
      + exists 1%Z, s2. split; [now left|exact Hu].
    - split; [exact Htag'|]. destruct Hu as (s2 & _ & Hu). split.
      + destruct Hc0 as [Hc0|Hc0]; [now symmetry|]. exfalso.
        destruct (C c0 Hc0) as (_ & _ & C3 & _). apply (Hne aad (h_type h) Htag). congruence.
      + exists 2%Z, s2. split; [right; now left|exact Hu]. }
  destruct Hcase as [(_ & Hwr & i & s2 & Hi & Hh2)|(Hne & Htt)].
  { right. left. exists i, s2, mk. split; [exact Hi|]. split; [exact Hh2|].
    rewrite Hwr in Q2. cbn [e_wrap c_key] in Q2. subst mk. exact Hk. }
  right. right.
  (* every body call is an honest body call *)
  assert (Hsub : forall c, In c (c0 :: bc0) -> In c cs).
  { intros c Hc. destruct (Hh c) as [Hx|Hx]; auto.
    { apply in_or_app. now right. }
    exfalso. destruct (Hbody c Hc) as (_ & _ & Hx3). subst c. cbn [e_wrap c_aad] in Hx3. congruence. }
  destruct (C c0 (Hsub c0 (or_introl eq_refl))) as (S1 & S2 & S3 & _).
  cbn [s_alg s_key] in S1, S2.
  assert (Haad : aad' = aad) by congruence.
  assert (Hmk' : mk = e_master r) by congruence.
  assert (Htype : h_type h' = t).
  { apply tag_bytes_inj. rewrite <- Htt, Haad. exact Htag. }
  unfold body_calls in Hbc. rewrite Htype, Hm in Hbc.
  destruct Hbc as (bl' & last' & Hdr & Hbl' & Hfin).
  pose proof Hsh as (Hns & _). unfold nonce_sized in Hns. rewrite Htype, Hm in Hns.
  assert (Hnonce : h_nonce h' = e_nonce t r).
  { destruct (enc_run_is_ciphertext E aad (mkStream (ht_algorithm t) (e_master r) (e_nonce t r) 0)
                (e_master r) (e_nonce t r) (ht_algorithm t) bs bl lb cs) as (_ & _ & N1 & N2);
      auto using counter_31.
    { unfold stream_ok. split; [reflexivity|]. split; [apply draw_length|].
      unfold e_nonce. now rewrite draw_length, Hm. }
    pose proof (counter_31 _ HE) as H31.
    assert (Hin1 : exists i b, c_nonce c0 = ctr_nonce (e_nonce t r) i b /\ (N.of_nat i < 2 ^ 31)%N).
    { assert (Hin2 : In (c_nonce c0) (stream_nonces (e_nonce t r) (length bl))).
      { rewrite <- N1. apply in_map. apply Hsub. now left. }
      unfold stream_nonces in Hin2. apply in_app_or in Hin2 as [Hin2|[Hin2|[]]].
      - apply in_map_iff in Hin2 as (i & Hi & Hi2). apply in_seq in Hi2. exists i, false. split; [auto|lia].
      - exists (length bl), true. split; [auto|lia]. }
    destruct Hin1 as (i & bb & Hi1 & Hi2).
    assert (Hz : exists b, c_nonce c0 = ctr_nonce (h_nonce h') 0 b).
    { inversion Hdr; subst; cbn [c_nonce]; eexists.
      - rewrite <- (shift_0 (mkStream _ _ _ _)). rewrite nonce_at_ctr; [reflexivity|reflexivity|reflexivity].
      - rewrite <- (shift_0 (mkStream _ _ _ _)). rewrite nonce_at_ctr; [reflexivity|reflexivity|reflexivity]. }
    destruct Hz as (b2 & Hz). rewrite Hz in Hi1.
    apply ctr_nonce_inj in Hi1 as (Hx & _); auto.
    - rewrite Hns. unfold e_nonce. now rewrite draw_length, Hm.
    - reflexivity. }
  rewrite Hnonce, Hmk' in Hdr.
  destruct (dec_run_follows E aad aad' (mkStream (ht_algorithm t) (e_master r) (e_nonce t r) 0)
              bl (Some lb) cs bl' last' (c0 :: bc0)) as (P1 & P2 & P3); auto.
  assert (Hmsg : concat (map c_msg (c0 :: bc0)) = p \/ exists k, concat (map c_msg (c0 :: bc0)) = firstn (k * bs) p).
  { rewrite P1, map_firstn, A, (firstn_blocks bs) by assumption. rewrite <- Hp.
    destruct (_ <=? _); eauto. }
  assert (Hpre : prefix_of (concat (map c_msg (c0 :: bc0))) p).
  { destruct Hmsg as [->|(k' & ->)]; [apply prefix_refl|apply prefix_firstn]. }
  split; [eapply prefix_trans; eauto|]. split.
  { intros Hpl. rewrite (J4 (or_intror Hpl)). exact Hmsg. }
  intros Hok. destruct (Hfin Hok) as (lb' & -> & Hcons & _).
  specialize (P2 lb' eq_refl).
  split.
  { rewrite (J4 (or_introl Hok)), P2, A, Hp, concat_app. cbn. now rewrite app_nil_r. }
  exists h', aad', d1, (w_in v1). split; [exact D1|]. split; [exact Htype|]. split; [exact Hnonce|].
  split; [now rewrite <- Hmk'|]. split.
  { assert (Hkc' : exists l kk key', h_keyslots h' = Some l /\ In kk l
        /\ hash E (ks_hash kk) pw' (ks_salt kk) = Ok key'
        /\ kc = [mkCall (ht_algorithm (h_type h')) key' (ks_nonce kk) [] mk (ks_enc kk)]).
    { unfold key_calls in Hkc. rewrite Htype in Hkc. rewrite Htype.
      destruct (ht_version t); cbn in Hver; try (exfalso; intuition discriminate);
        destruct Hkc as (l & kk & key' & K1 & K2 & K3 & _ & K4); exists l, kk, key'; auto. }
    destruct Hkc' as (l & kk & key' & K1 & K2 & K3 & K4). exists l, kk, key'.
    split; [exact K1|]. split; [exact K2|]. split; [exact K3|].
    assert (Hx : In (mkCall (ht_algorithm (h_type h')) key' (ks_nonce kk) [] mk (ks_enc kk))
                   (e_wrap (ht_algorithm t) key r wrapped :: cs)).
    { apply Hh. rewrite K4. now left. }
    destruct Hx as [Hx|Hx].
    - unfold e_wrap in Hx. injection Hx as _ Hx _ _ _. now rewrite <- Hx.
    - exfalso. destruct (C _ Hx) as (_ & _ & C3 & _). cbn [c_aad] in C3. apply Hne. congruence. }
  split; [exact Hin|]. split; [exact Hd1|].
  rewrite Hcons, HS. cbn [tl].
  apply dec_run_calls in Hdr as (A' & _). rewrite P2 in A'. rewrite A', concat_app. cbn.
  now rewrite app_nil_r.
Qed.

(** ** The properties *)

Lemma write_at_empty : forall l, write_at [] 0 l = l.
Proof. intros l. now rewrite write_at_0, skipn_nil, app_nil_r. Qed.

Lemma is_ciphertext_unique : forall E a key prefix aad bs p ct ct',
  is_ciphertext E a key prefix aad bs p ct -> is_ciphertext E a key prefix aad bs p ct' -> ct = ct'.
Proof.
  intros E a key prefix aad bs p ct ct' (cs & -> & L & H) (cs' & -> & L' & H').
  f_equal. apply nth_error_all. intros i.
  destruct (le_lt_dec i (length p / bs)) as [Hi|Hi].
  - now rewrite H, H'.
  - rewrite (proj2 (nth_error_None cs i)), (proj2 (nth_error_None cs' i)) by lia. reflexivity.
Qed.

Lemma sealed_body_ciphertext : forall E bs h aad mk p ct cs,
  env_ok E -> 0 < bs -> length mk = 32 -> nonce_sized h -> ht_mode (h_type h) = StreamMode ->
  sealed_body E bs h aad mk p ct cs ->
  is_ciphertext E (ht_algorithm (h_type h)) mk (h_nonce h) aad bs p ct.
Proof.
  intros E bs h aad mk p ct cs HE Hbs Hmk Hn Hm (bl & last & R1 & R2 & R3 & -> & ->).
  eapply enc_run_is_ciphertext; eauto using counter_31.
  unfold stream_ok. unfold nonce_sized in Hn. rewrite Hm in Hn. auto.
Qed.

Lemma file_round_trip_bs : forall E bs req w key,
  env_ok E -> 0 < bs -> bs <= BLOCK_SIZE ->
  let p := d_data (w_in w) in
  ht_mode (er_header_type req) = StreamMode ->
  (forall r wrapped, length wrapped = 48 -> wf_header (e_header req r wrapped)) ->
  er_detached req = false ->
  d_plan (w_in w) = [] -> d_plan (w_out w) = [] ->
  hash E (er_hashing_algorithm req) (er_raw_key req) (draw (w_rng w) 0 16) = Ok key ->
  (N.of_nat (length p / bs) <= counter_max E)%N ->
  exists w' file,
    encrypt_execute_bs E bs req w = (Ok tt, w')
    /\ wrote (set_pos 0 (w_out w)) (w_out w') file
    /\ (d_data (w_out w) = [] -> d_data (w_out w') = file)
    /\ forall v, d_plan (w_in v) = [] -> d_plan (w_out v) = [] -> rest (w_in v) = file ->
         exists v', decrypt_execute_bs E bs false (er_raw_key req) v = (Ok tt, v')
           /\ wrote (w_out v) (w_out v') p.
Proof.
  intros E bs req w key HE Hbs Hbs' p Hm Hwf Hdt Hi Ho Hk Hc.
  destruct (encrypt_execute_result E bs req w key HE Hbs Hbs' Hm Hwf Hi Ho) as
    (wrapped & b & aad & R1 & R2 & R3 & R4 & R5 & R6); [congruence|exact Hk|].
  apply N.leb_le in Hc. fold p in R6. rewrite Hc, Hdt in R6.
  destruct R6 as (w' & ct & cs & S1 & S2 & S3 & S4 & S5 & S6).
  exists w', (b ++ ct). split; [exact S1|]. split; [exact S5|]. split.
  { intros He. destruct S5 as (X & _). cbn [set_pos d_data d_pos] in X. now rewrite X, He, write_at_empty. }
  intros v Vi Vo Vr. eapply decrypt_embedded_honest; eauto.
Qed.

Lemma file_round_trip_detached_bs : forall E bs req w key,
  env_ok E -> 0 < bs -> bs <= BLOCK_SIZE ->
  let p := d_data (w_in w) in
  ht_mode (er_header_type req) = StreamMode ->
  (forall r wrapped, length wrapped = 48 -> wf_header (e_header req r wrapped)) ->
  er_detached req = true ->
  d_plan (w_in w) = [] -> d_plan (w_out w) = [] -> d_plan (w_hdr w) = [] ->
  hash E (er_hashing_algorithm req) (er_raw_key req) (draw (w_rng w) 0 16) = Ok key ->
  (N.of_nat (length p / bs) <= counter_max E)%N ->
  exists w' hdr body,
    encrypt_execute_bs E bs req w = (Ok tt, w')
    /\ wrote (set_pos 0 (w_out w)) (w_out w') body
    /\ length body = length p + 16 * (length p / bs + 1)
    /\ wrote (set_pos 0 (w_hdr w)) (w_hdr w') hdr
    /\ length hdr = get_size (ht_version (er_header_type req))
    /\ forall v, d_plan (w_in v) = [] -> d_plan (w_out v) = [] -> d_plan (w_hdr v) = [] ->
         at_cursor (w_hdr v) hdr -> d_pos (w_in v) = 0 ->
         d_data (w_in v) = body /\ all_zero (firstn (length hdr) body) = false
         \/ d_data (w_in v) = zeros (length hdr) ++ body ->
         exists v', decrypt_execute_bs E bs true (er_raw_key req) v = (Ok tt, v')
           /\ wrote (w_out v) (w_out v') p.
Proof.
  intros E bs req w key HE Hbs Hbs' p Hm Hwf Hdt Hi Ho Hh Hk Hc.
  destruct (encrypt_execute_result E bs req w key HE Hbs Hbs' Hm Hwf Hi Ho) as
    (wrapped & b & aad & R1 & R2 & R3 & R4 & R5 & R6); [auto|exact Hk|].
  apply N.leb_le in Hc. fold p in R6. rewrite Hc, Hdt in R6.
  destruct R6 as (w' & ct & cs & S1 & S2 & S3 & S4 & S5 & S6).
  exists w', b, ct. split; [exact S1|]. split; [exact S5|]. split.
  { eapply is_ciphertext_length; [exact HE|exact Hbs|].
    eapply sealed_body_ciphertext; [exact HE|exact Hbs| | | |exact S2].
    - apply draw_length.
    - apply wf_shape in R2. apply R2.
    - exact Hm. }
  split. { rewrite S6. apply put_at_wrote. }
  split. { destruct header_size_exact as (Hsz & _). apply (Hsz _ _ R2 R3). }
  intros v Vi Vo Vh Vat V0 Vd. eapply decrypt_detached_honest; eauto. tauto.
Qed.

Lemma wrong_key_writes_nothing : forall E bs detached pw v o v',
  env_ok E -> decrypt_execute_bs E bs detached pw v = (o, v') ->
  (forall h aad d, deserialize (header_source detached v) = (Ok (h, aad), d) ->
     forall mk, ~ unlocks E pw h mk) ->
  (exists e, o = Err e) /\ w_out v' = w_out v.
Proof.
  intros E bs detached pw v o v' HE H Hno.
  apply decrypt_execute_spec in H; [|exact HE].
  destruct H as [(e & -> & Ho & _)|(h & aad & d1 & v1 & D1 & Hsh & Ho & _ & _ & _ & _ & Hend)].
  { split; eauto. }
  destruct Hend as (_ & _ & _ & I4 & written & kc & bc & _ & _ & _ & _ & J5 & J6).
  destruct J6 as [(-> & -> & J6)|(mk & Hu & _)].
  - split; [|congruence]. destruct I4 as [->|I4]; [|exact I4]. now destruct (J5 eq_refl).
  - exfalso. eapply Hno; eauto.
Qed.

Lemma nothing_accepted_writes_nothing : forall E bs detached pw v o v',
  env_ok E -> decrypt_execute_bs E bs detached pw v = (o, v') -> w_tr v = [] ->
  (forall h aad d, deserialize (header_source detached v) = (Ok (h, aad), d) ->
     length (opened (w_tr v')) <= key_openings (ht_version (h_type h))) ->
  (exists e, o = Err e) /\ wrote (w_out v) (w_out v') [].
Proof.
  intros E bs detached pw v o v' HE H Htr Hno.
  apply decrypt_execute_spec in H; [|exact HE].
  destruct H as [(e & -> & Ho & _)|(h & aad & d1 & v1 & D1 & Hsh & Ho & Ht & _ & _ & _ & Hend)].
  { split; eauto. rewrite Ho. apply wrote_refl. }
  destruct Hend as (_ & _ & _ & I4 & written & kc & bc & J1 & J2 & J3 & _ & J5 & J6).
  specialize (Hno _ _ _ D1). rewrite J1, Ht, Htr in Hno. cbn [app] in Hno.
  rewrite (proj1 (opened_map _)), app_length in Hno.
  assert (bc = []).
  { destruct J6 as [(_ & -> & _)|(mk & _ & _ & Hkc & _)]; [reflexivity|].
    unfold key_calls in Hkc. destruct (ht_version (h_type h)); cbn [key_openings] in Hno;
      try (destruct Hkc as (l & k & key & _ & _ & _ & _ & ->); cbn [length] in Hno);
      destruct bc; cbn [length] in Hno; auto; lia. }
  subst bc. split.
  - destruct I4 as [->|I4]; [|exact I4]. now destruct (J5 eq_refl).
  - rewrite Ho in J2. destruct J3 as (z & J3). cbn in J3. symmetry in J3.
    apply app_eq_nil in J3 as (-> & _). exact J2.
Qed.

(** ** Unsupported requests *)


Lemma enc_tail_unserializable : forall E bs detached h s w o w',
  (serialize h = Panic \/ exists e, serialize h = Err e) ->
  enc_tail E bs detached h s w = (o, w') ->
  untouched (w_out w) (w_out w') /\ untouched (w_hdr w) (w_hdr w')
  /\ ((exists e, o = Err e) \/ (o = Panic /\ serialize h = Panic)).
Proof.
  intros E bs detached h s w o w' Hser H. unfold enc_tail in H.
  assert (Hwh : forall d, exists o1, write_header_to h d = (o1, d)
            /\ ((exists e, o1 = Err e) \/ (o1 = Panic /\ serialize h = Panic))).
  { intros d. unfold write_header_to. destruct Hser as [Hs|(e & Hs)].
    - exists Panic. split; [|auto]. unfold bind, map_err, lift. now rewrite Hs.
    - exists (Err EncWriteHeader). split; [|eauto]. unfold bind, map_err, lift. now rewrite Hs. }
  assert (Hrw : forall d o1 d1, dev_rewind d = (o1, d1) ->
            untouched d d1 /\ ((exists u, o1 = Ok u) \/ exists e, o1 = Err e)).
  { intros d o1 d1 Hd. apply dev_seek_start_spec in Hd as (_ & A & B & C). split; [split; assumption|].
    destruct o1; eauto; contradiction. }
  destruct (dev_rewind (w_out w)) as [o1 d1] eqn:H1. pose proof (Hrw _ _ _ H1) as (U1 & O1).
  destruct O1 as [(u & ->)|(e & ->)].
  2:{ erewrite bind_err in H by (apply map_err_err, zoom_eq; exact H1). inversion H; subst.
      cbn [w_in w_out w_hdr w_rng w_tr]. split; [exact U1|]. split; [split; reflexivity|]. eauto. }
  erewrite bind_ok in H by (apply map_err_ok, zoom_eq; exact H1).
  cbn [w_in w_out w_hdr w_rng w_tr] in H.
  destruct detached.
  - destruct (dev_rewind (w_hdr w)) as [o2 d2] eqn:H2. pose proof (Hrw _ _ _ H2) as (U2 & O2).
    destruct O2 as [(u2 & ->)|(e & ->)].
    2:{ erewrite bind_err in H.
        2:{ erewrite bind_err by (apply map_err_err, zoom_eq; exact H2). reflexivity. }
        inversion H; subst. cbn [w_in w_out w_hdr w_rng w_tr]. eauto 6. }
    destruct (Hwh d2) as (o3 & W1 & W2).
    destruct W2 as [(e & ->)|(-> & Hp)].
    + erewrite bind_err in H.
      2:{ erewrite bind_ok by (apply map_err_ok, zoom_eq; exact H2).
          unfold on_hdr. erewrite zoom_eq by exact W1. reflexivity. }
      inversion H; subst. cbn [w_in w_out w_hdr w_rng w_tr]. eauto 6.
    + erewrite bind_panic in H.
      2:{ erewrite bind_ok by (apply map_err_ok, zoom_eq; exact H2).
          unfold on_hdr. erewrite zoom_eq by exact W1. reflexivity. }
      inversion H; subst. cbn [w_in w_out w_hdr w_rng w_tr]. eauto 8.
  - destruct (Hwh d1) as (o3 & W1 & W2).
    destruct W2 as [(e & ->)|(-> & Hp)].
    + erewrite bind_err in H.
      2:{ unfold on_out. erewrite zoom_eq by exact W1. reflexivity. }
      inversion H; subst. cbn [w_in w_out w_hdr w_rng w_tr].
      split; [exact U1|]. split; [split; reflexivity|]. eauto.
    + erewrite bind_panic in H.
      2:{ unfold on_out. erewrite zoom_eq by exact W1. reflexivity. }
      inversion H; subst. cbn [w_in w_out w_hdr w_rng w_tr].
      split; [exact U1|]. split; [split; reflexivity|]. right. auto.
Qed.

Lemma unsupported_request : forall E bs req w o w',
  env_ok E -> ~ supported req -> encrypt_execute_bs E bs req w = (o, w') ->
  untouched (w_out w) (w_out w') /\ untouched (w_hdr w) (w_hdr w')
  /\ ((exists e, o = Err e)
      \/ (o = Panic /\ ht_version (er_header_type req) = V3
          /\ ht_mode (er_header_type req) = StreamMode)).
Proof.
  intros E bs req w o w' HE Hns H.
  pose proof (encrypt_execute_cases E bs req w HE) as C. cbv zeta in C.
  destruct (hash_cases E (er_hashing_algorithm req) (er_raw_key req) (e_salt (w_rng w))) as [(key & Hk)|Hk];
    rewrite Hk in C.
  2:{ destruct C as (w1 & C & (S1 & S2 & S3) & _). rewrite H in C. inversion C; subst.
      unfold untouched. rewrite S2, S3. parts; auto. eauto. }
  destruct C as (wrapped & r' & C1 & C2 & C3 & C4). rewrite H in C4.
  destruct (ht_mode (er_header_type req)) eqn:Hm.
  { inversion C4; subst. unfold untouched. cbn [w_in w_out w_hdr]. parts; auto. eauto. }
  assert (Hv : ~ In (ht_version (er_header_type req)) [V4; V5]).
  { intros Hv. apply Hns. split; [exact Hv|]. split; [exact Hm|]. eapply hash_known; eauto. }
  symmetry in C4. apply enc_tail_unserializable in C4.
  - destruct C4 as (U1 & U2 & C4). cbn [w_out w_hdr] in U1, U2. split; [exact U1|]. split; [exact U2|].
    destruct C4 as [C4|(-> & C4)]; [left; exact C4|]. right. split; [reflexivity|]. split; [|reflexivity].
    unfold serialize in C4. cbn [e_header h_type] in C4.
    destruct (ht_version (er_header_type req)); auto; try discriminate C4;
      exfalso; apply Hv; cbn; tauto.
  - unfold serialize. cbn [e_header h_type].
    destruct (ht_version (er_header_type req)); eauto; exfalso; apply Hv; cbn; tauto.
Qed.

(** No request but V3 panics, on any devices. *)
Lemma enc_tail_no_panic : forall E bs detached h s w o w', 0 < bs ->
  (exists b, serialize h = Ok b) -> (exists aad, create_aad h = Ok aad) ->
  enc_tail E bs detached h s w = (o, w') -> o <> Panic /\ o <> Diverge.
Proof.
  intros E bs detached h s w o w' Hbs (b & Hs) (aad & Ha) H. unfold enc_tail in H.
  assert (Hrw : forall d o1 d1, dev_rewind d = (o1, d1) -> o1 <> Panic /\ o1 <> Diverge).
  { intros d o1 d1 Hd. apply dev_seek_start_spec in Hd as (_ & A & B & C).
    destruct o1; try contradiction; split; discriminate. }
  assert (Hwh : forall d o1 d1, write_header_to h d = (o1, d1) -> o1 <> Panic /\ o1 <> Diverge).
  { intros d o1 d1 Hd. unfold write_header_to in Hd.
    erewrite bind_ok in Hd by (apply map_err_ok; unfold lift; rewrite Hs; reflexivity).
    apply bind_inv in Hd as [(n & d2 & _ & Hd)|[(e & _ & ->)|[(Hx & ->)|(Hx & ->)]]].
    - inversion Hd; split; discriminate.
    - split; discriminate.
    - apply map_err_inv in Hx as [(x & _ & X)|[(e & _ & X)|[(Hx & _)|(Hx & _)]]]; try discriminate X;
        apply dev_write_spec in Hx as (_ & Hx); contradiction.
    - apply map_err_inv in Hx as [(x & _ & X)|[(e & _ & X)|[(Hx & _)|(Hx & _)]]]; try discriminate X;
        apply dev_write_spec in Hx as (_ & Hx); contradiction. }
  apply bind_inv in H as [(u1 & w1 & _ & H)|[(e & _ & ->)|[(Hx & ->)|(Hx & ->)]]];
    [|split; discriminate| |].
  2,3: apply map_err_inv in Hx as [(x & _ & X)|[(e & _ & X)|[(Hx & _)|(Hx & _)]]]; try discriminate X;
       apply zoom_inv in Hx as (d & Hx & _); apply Hrw in Hx; tauto.
  apply bind_inv in H as [(u2 & w2 & _ & H)|[(e & _ & ->)|[(Hx & ->)|(Hx & ->)]]];
    [|split; discriminate| |].
  2,3: exfalso; destruct detached;
       [apply bind_inv in Hx as [(u3 & w3 & _ & Hx)|[(e & _ & X)|[(Hx & _)|(Hx & _)]]]; try discriminate X;
        [apply zoom_inv in Hx as (d & Hx & _); apply Hwh in Hx; tauto
        |apply map_err_inv in Hx as [(x & _ & X)|[(e & _ & X)|[(Hx & _)|(Hx & _)]]]; try discriminate X;
         apply zoom_inv in Hx as (d & Hx & _); apply Hrw in Hx; tauto
        |apply map_err_inv in Hx as [(x & _ & X)|[(e & _ & X)|[(Hx & _)|(Hx & _)]]]; try discriminate X;
         apply zoom_inv in Hx as (d & Hx & _); apply Hrw in Hx; tauto]
       |apply zoom_inv in Hx as (d & Hx & _); apply Hwh in Hx; tauto].
  erewrite bind_ok in H by (apply map_err_ok; unfold lift; rewrite Ha; reflexivity).
  apply bind_inv in H as [(u4 & w4 & _ & H)|[(e & _ & ->)|[(Hx & ->)|(Hx & ->)]]];
    [|split; discriminate| |].
  2,3: apply map_err_inv in Hx as [(x & _ & X)|[(e & _ & X)|[(Hx & _)|(Hx & _)]]]; try discriminate X;
       apply zoom_inv in Hx as (d & Hx & _); apply Hrw in Hx; tauto.
  apply map_err_inv in H as [(x & _ & ->)|[(e & _ & ->)|[(H & ->)|(H & ->)]]]; try (split; discriminate);
    apply encrypt_file_spec in H; auto;
    destruct H as (_ & bl & last & cs & ct & n & _ & _ & _ & _ & _ & _ & _ & []).
Qed.

Lemma encrypt_no_panic : forall E bs req w o w',
  env_ok E -> 0 < bs -> ht_version (er_header_type req) <> V3 ->
  encrypt_execute_bs E bs req w = (o, w') -> o <> Panic /\ o <> Diverge.
Proof.
  intros E bs req w o w' HE Hbs Hv H.
  pose proof (encrypt_execute_cases E bs req w HE) as C. cbv zeta in C.
  destruct (hash_cases E (er_hashing_algorithm req) (er_raw_key req) (e_salt (w_rng w))) as [(key & Hk)|Hk];
    rewrite Hk in C.
  2:{ destruct C as (w1 & C & _). rewrite H in C. inversion C; split; discriminate. }
  destruct C as (wrapped & r' & C1 & C2 & C3 & C4). rewrite H in C4.
  destruct (ht_mode (er_header_type req)) eqn:Hm.
  { inversion C4; split; discriminate. }
  symmetry in C4.
  destruct (ht_version (er_header_type req)) eqn:Hver; try congruence.
  1,2: apply enc_tail_unserializable in C4;
    [destruct C4 as (_ & _ & [(e & ->)|(-> & C4)]); [split; discriminate|];
     unfold serialize in C4; cbn [e_header h_type] in C4; rewrite Hver in C4; discriminate
    |unfold serialize; cbn [e_header h_type]; rewrite Hver; eauto].
  all: eapply enc_tail_no_panic; [exact Hbs| | |exact C4];
    unfold serialize, create_aad; cbn [e_header h_type]; rewrite Hver; eexists; reflexivity.
Qed.

(** ** Two runs *)

Lemma key_independent : forall E bs detached t pw1 ha1 pw2 ha2 w u1 w1 u2 w2,
  env_ok E -> 0 < bs ->
  d_plan (w_in w) = [] -> d_plan (w_out w) = [] -> d_plan (w_hdr w) = [] ->
  encrypt_execute_bs E bs (mkEncReq detached pw1 t ha1) w = (Ok u1, w1) ->
  encrypt_execute_bs E bs (mkEncReq detached pw2 t ha2) w = (Ok u2, w2) ->
  let off := match ht_version t with V4 => 48 | _ => 32 end in
  let klen := match ht_version t with V4 => 48 | _ => 50 end in
  exists pre k1 k2 post body,
    length pre = off /\ length k1 = klen /\ length k2 = length k1
    /\ wrote (set_pos 0 (w_out w)) (w_out w1)
         (if detached then body else pre ++ k1 ++ post ++ body)
    /\ wrote (set_pos 0 (w_out w)) (w_out w2)
         (if detached then body else pre ++ k2 ++ post ++ body)
    /\ (if detached
        then wrote (set_pos 0 (w_hdr w)) (w_hdr w1) (pre ++ k1 ++ post)
             /\ wrote (set_pos 0 (w_hdr w)) (w_hdr w2) (pre ++ k2 ++ post)
        else w_hdr w1 = w_hdr w /\ w_hdr w2 = w_hdr w).
Proof.
  intros E bs detached t pw1 ha1 pw2 ha2 w u1 w1 u2 w2 HE Hbs Hi Ho Hh H1 H2 off klen.
  apply encrypt_ok_inv in H1; auto. apply encrypt_ok_inv in H2; auto.
  cbv zeta in H1, H2. cbn [er_header_type er_detached er_raw_key er_hashing_algorithm] in H1, H2.
  destruct H1 as (key1 & wr1 & b1 & aad1 & ct1 & cs1 & k1 & A1 & A2 & A3 & A4 & A5 & A6 & A7 & A8 & A9 & A10 & A11 & A12 & A13).
  destruct H2 as (key2 & wr2 & b2 & aad2 & ct2 & cs2 & k2 & B1 & B2 & B3 & B4 & B5 & B6 & B7 & B8 & B9 & B10 & B11 & B12 & B13).
  set (r := w_rng w) in *.
  assert (Hns : no_short (d_plan (w_in w))) by (now apply no_short_nil).
  specialize (A11 Hns). specialize (B11 Hns).
  assert (Haad : aad1 = aad2).
  { unfold create_aad in A7, B7. cbn [e_header h_type h_keyslots h_salt h_nonce ks_salt] in A7, B7.
    cbn [er_header_type] in A7, B7.
    destruct (ht_version t); cbn in A5; try (exfalso; intuition discriminate); cbn [ks_salt] in A7, B7;
      rewrite A7 in B7; now apply Ok_inj in B7. }
  assert (Hct : ct1 = ct2).
  { rewrite A11 in A8. rewrite B11 in B8. subst aad2.
    apply sealed_body_ciphertext in A8; auto;
      try (unfold nonce_sized; apply draw_length).
    apply sealed_body_ciphertext in B8; auto;
      try (unfold nonce_sized; apply draw_length).
    eapply is_ciphertext_unique; [exact A8|exact B8]. }
  subst ct2.
  assert (Hhdr : exists pre x1 x2 post, length pre = off /\ length x1 = klen /\ length x2 = length x1
            /\ b1 = pre ++ x1 ++ post /\ b2 = pre ++ x2 ++ post).
  { unfold serialize in A6, B6. cbn [e_header h_type er_header_type] in A6, B6.
    destruct (nonce_len_bounds (ht_algorithm t) (ht_mode t)) as (N1 & N2 & N3).
    assert (Hnl : length (e_nonce t r) = get_nonce_len (ht_algorithm t) (ht_mode t)) by apply draw_length.
    destruct (ht_version t) eqn:Hv; cbn in A5; try (exfalso; intuition discriminate); unfold off, klen.
    - unfold serialize_v4 in A6, B6.
      cbn [e_header h_keyslots h_salt h_type h_nonce ks_salt ks_enc ks_nonce er_header_type] in A6, B6.
      apply Ok_inj in A6. apply Ok_inj in B6.
      exists (tag_bytes t ++ e_salt r ++ e_nonce t r ++ nonce_padding t), wr1, wr2,
        (e_mk_nonce (ht_algorithm t) r ++ zeros (32 - get_nonce_len (ht_algorithm t) MemoryMode)).
      split. { rewrite !app_length, tag_bytes_length, nonce_padding_length, Hnl.
               unfold e_salt. rewrite draw_length. lia. }
      split; [rewrite A3; reflexivity|]. split; [congruence|].
      rewrite <- A6, <- B6, <- !app_assoc. auto.
    - unfold serialize_v5 in A6, B6.
      cbn [e_header h_keyslots h_salt h_type h_nonce ks_salt ks_enc ks_nonce er_header_type length
           Nat.leb map concat] in A6, B6.
      apply Ok_inj in A6. apply Ok_inj in B6. rewrite app_nil_r in A6, B6.
      exists (tag_bytes t ++ e_nonce t r ++ nonce_padding t),
        (keyslot_serialize (mkSlot ha1 wr1 (e_mk_nonce (ht_algorithm t) r) (e_salt r)) ++ wr1),
        (keyslot_serialize (mkSlot ha2 wr2 (e_mk_nonce (ht_algorithm t) r) (e_salt r)) ++ wr2),
        (e_mk_nonce (ht_algorithm t) r ++ zeros (24 - get_nonce_len (ht_algorithm t) MemoryMode)
         ++ e_salt r ++ zeros 6 ++ concat (repeat (zeros 96) (4 - 1))).
      split. { rewrite !app_length, tag_bytes_length, nonce_padding_length, Hnl. lia. }
      assert (Hks : forall k, length (keyslot_serialize k) = 2) by (intros k; rewrite keyslot_serialize_id; apply slot_id_length).
      split; [rewrite app_length, Hks, A3; reflexivity|].
      split; [rewrite !app_length, !Hks; unfold bytes in *; lia|].
      split; [rewrite <- A6|rewrite <- B6]; unfold slot_bytes;
        cbn [ks_enc ks_nonce ks_salt er_hashing_algorithm]; now rewrite <- !app_assoc. }
  destruct Hhdr as (pre & x1 & x2 & post & L1 & L2 & L3 & E1 & E2).
  exists pre, x1, x2, post, ct1. split; [exact L1|]. split; [exact L2|]. split; [exact L3|].
  destruct detached.
  - destruct A13 as (W1 & W2 & W3), B13 as (W4 & W5 & W6).
    rewrite (W3 (no_short_nil _ Hh)), firstn_all, E1 in W1. rewrite (W6 (no_short_nil _ Hh)), firstn_all, E2 in W4. auto.
  - destruct A13 as (W1 & W2 & W3), B13 as (W4 & W5 & W6).
    rewrite (W3 (no_short_nil _ Ho)), firstn_all, E1 in W1. rewrite (W6 (no_short_nil _ Ho)), firstn_all, E2 in W4.
    rewrite <- !app_assoc in W1, W4. auto.
Qed.

Lemma output_after_encrypt : forall E bs req w w',
  env_ok E -> 0 < bs -> er_detached req = false ->
  d_plan (w_in w) = [] -> d_plan (w_out w) = [] ->
  encrypt_execute_bs E bs req w = (Ok tt, w') ->
  exists h hdr aad body,
    h_type h = er_header_type req /\ serialize h = Ok hdr /\ create_aad h = Ok aad
    /\ is_ciphertext E (ht_algorithm (er_header_type req)) (e_master (w_rng w)) (h_nonce h) aad bs
         (d_data (w_in w)) body
    /\ d_data (w_out w') = hdr ++ body ++ skipn (length (hdr ++ body)) (d_data (w_out w)).
Proof.
  intros E bs req w w' HE Hbs Hdt Hi Ho H.
  apply encrypt_ok_inv in H; auto. cbv zeta in H. rewrite Hdt in H.
  destruct H as (key & wr & b & aad & ct & cs & k & A1 & A2 & A3 & A4 & A5 & A6 & A7 & A8 & A9 & A10 & A11 & A12 & W1 & W2 & W3).
  assert (Hns : no_short (d_plan (w_in w))) by (now apply no_short_nil).
  rewrite (A11 Hns) in A8.
  exists (e_header req (w_rng w) wr), b, aad, ct. split; [reflexivity|]. split; [exact A6|].
  split; [exact A7|]. split.
  - apply sealed_body_ciphertext in A8; auto;
      try (unfold nonce_sized; apply draw_length).
  - rewrite (W3 (no_short_nil _ Ho)), firstn_all in W1. destruct W1 as (W1 & _). rewrite W1.
    cbn [set_pos d_data d_pos]. now rewrite write_at_0, <- app_assoc.
Qed.

(** ** Wrappers for the real block size *)

Definition kdf_input_eq_dec : forall a b : hashing_algorithm * bytes * bytes, {a = b} + {a <> b}.
Proof.
  assert (HA : forall a b : hashing_algorithm, {a = b} + {a <> b})
    by (decide equality; apply Z.eq_dec).
  assert (HB : forall a b : bytes, {a = b} + {a <> b}) by (apply list_eq_dec, byte_eq_dec).
  intros [[h1 p1] s1] [[h2 p2] s2].
  destruct (HA h1 h2) as [<-|N]; [|right; intros H; apply N; now inversion H].
  destruct (HB p1 p2) as [<-|N]; [|right; intros H; apply N; now inversion H].
  destruct (HB s1 s2) as [<-|N]; [|right; intros H; apply N; now inversion H].
  now left.
Qed.

Lemma kdf_same_or_collision : forall E h1 p1 s1 h2 p2 s2 key,
  hash E h1 p1 s1 = Ok key -> hash E h2 p2 s2 = Ok key ->
  (h1, p1, s1) = (h2, p2, s2) \/ kdf_collision E h1 p1 s1 h2 p2 s2.
Proof.
  intros. destruct (kdf_input_eq_dec (h1, p1, s1) (h2, p2, s2)); [now left|].
  right. split; eauto.
Qed.

Lemma file_integrity_holds : forall E req w w' detached pw v v',
  env_ok E -> w_tr w = [] -> w_tr v = [] ->
  ~ In (er_hashing_algorithm req) [Argon2id 1; Argon2id 2] ->
  encrypt_execute E req w = (Ok tt, w') ->
  decrypt_execute E detached pw v = (Ok tt, v') ->
  let p := firstn (d_pos (w_in w')) (d_data (w_in w)) in
  (no_short (d_plan (w_in w)) -> p = d_data (w_in w)) /\
  ((exists c, In c (opened (w_tr v')) /\ forgery E (w_tr w') c)
   \/ (exists ha s, kdf_collision E (er_hashing_algorithm req) (er_raw_key req)
                      (draw (w_rng w) 0 16) ha pw s)
   \/ (pw = er_raw_key req /\ wrote (w_out v) (w_out v') p
       /\ exists h aad d1 d2,
            deserialize (header_source detached v) = (Ok (h, aad), d1)
            /\ h_type h = er_header_type req
            /\ h_nonce h = e_nonce (er_header_type req) (w_rng w)
            /\ d_data d2 = d_data (w_in v) /\ (detached = false -> d2 = d1)
            /\ consumed d2 (w_in v') = body_of w')).
Proof.
  intros E req w w' detached pw v v' HE Htr Htr' Hha He Hd p.
  split. { apply encrypt_ok_inv in He; auto using BLOCK_SIZE_pos. cbv zeta in He.
           destruct He as (key & wr & b & aad & ct & cs & k & A). tauto. }
  destruct (file_integrity E BLOCK_SIZE req w w' detached pw v _ v' HE BLOCK_SIZE_pos Htr Htr' He Hd)
    as (written & W & [Hf|[(i & s2 & key & Hi & H1 & H2)|(_ & _ & Hok)]]).
  - left. exact Hf.
  - right. left. exists (Argon2id i), s2.
    destruct (kdf_same_or_collision _ _ _ _ _ _ _ _ H2 H1) as [Heq|Hc]; [|exact Hc].
    exfalso. apply Hha. injection Heq as -> _ _. destruct Hi as [<-|[<-|[]]]; cbn; auto.
  - right. specialize (Hok eq_refl).
    destruct Hok as (-> & h & aad & d1 & d2 & D1 & D2 & D3 & D4 & (l & k & key & K1 & K2 & K3 & K4) & D5 & D6 & D7).
    destruct (kdf_same_or_collision _ _ _ _ _ _ _ _ K4 K3) as [Heq|Hc].
    + right. injection Heq as _ Hpw _. split; [now symmetry|]. split; [exact W|].
      exists h, aad, d1, d2. auto 10.
    + left. eauto.
Qed.

Lemma only_authentic_file_output : forall E req w w' detached pw v o v',
  env_ok E -> w_tr w = [] -> w_tr v = [] ->
  ~ In (er_hashing_algorithm req) [Argon2id 1; Argon2id 2] ->
  encrypt_execute E req w = (Ok tt, w') ->
  decrypt_execute E detached pw v = (o, v') ->
  let p := firstn (d_pos (w_in w')) (d_data (w_in w)) in
  exists written, wrote (w_out v) (w_out v') written /\
  ((exists c, In c (opened (w_tr v')) /\ forgery E (w_tr w') c)
   \/ (exists ha s, kdf_collision E (er_hashing_algorithm req) (er_raw_key req)
                      (draw (w_rng w) 0 16) ha pw s)
   \/ (prefix_of written p
       /\ (d_plan (w_out v) = [] ->
             written = p \/ exists n, written = firstn (n * BLOCK_SIZE) p))).
Proof.
  intros E req w w' detached pw v o v' HE Htr Htr' Hha He Hd p.
  destruct (file_integrity E BLOCK_SIZE req w w' detached pw v _ v' HE BLOCK_SIZE_pos Htr Htr' He Hd)
    as (written & W & [Hf|[(i & s2 & key & Hi & H1 & H2)|(Hp & Hb & _)]]); exists written; (split; [exact W|]).
  - left. exact Hf.
  - right. left. exists (Argon2id i), s2.
    destruct (kdf_same_or_collision _ _ _ _ _ _ _ _ H2 H1) as [Heq|Hc]; [|exact Hc].
    exfalso. apply Hha. injection Heq as -> _ _. destruct Hi as [<-|[<-|[]]]; cbn; auto.
  - right. right. auto.
Qed.

Lemma file_round_trip_v5 : forall E req w key,
  env_ok E ->
  let p := d_data (w_in w) in
  ht_version (er_header_type req) = V5 -> ht_mode (er_header_type req) = StreamMode ->
  er_detached req = false ->
  d_plan (w_in w) = [] -> d_plan (w_out w) = [] ->
  hash E (er_hashing_algorithm req) (er_raw_key req) (draw (w_rng w) 0 16) = Ok key ->
  (N.of_nat (length p / BLOCK_SIZE) <= counter_max E)%N ->
  exists w' file,
    encrypt_execute E req w = (Ok tt, w')
    /\ wrote (set_pos 0 (w_out w)) (w_out w') file
    /\ (d_data (w_out w) = [] -> d_data (w_out w') = file)
    /\ forall v, d_plan (w_in v) = [] -> d_plan (w_out v) = [] -> rest (w_in v) = file ->
         exists v', decrypt_execute E false (er_raw_key req) v = (Ok tt, v')
           /\ wrote (w_out v) (w_out v') p.
Proof.
  intros E req w key HE p Hv Hm Hdt Hi Ho Hk Hc.
  apply (file_round_trip_bs E BLOCK_SIZE req w key); auto using BLOCK_SIZE_pos.
  intros. apply e_header_wf_v5; auto. eapply hash_known; eauto.
Qed.

Lemma file_round_trip_detached_v5 : forall E req w key,
  env_ok E ->
  let p := d_data (w_in w) in
  ht_version (er_header_type req) = V5 -> ht_mode (er_header_type req) = StreamMode ->
  er_detached req = true ->
  d_plan (w_in w) = [] -> d_plan (w_out w) = [] -> d_plan (w_hdr w) = [] ->
  hash E (er_hashing_algorithm req) (er_raw_key req) (draw (w_rng w) 0 16) = Ok key ->
  (N.of_nat (length p / BLOCK_SIZE) <= counter_max E)%N ->
  exists w' hdr body,
    encrypt_execute E req w = (Ok tt, w')
    /\ wrote (set_pos 0 (w_out w)) (w_out w') body
    /\ length body = length p + 16 * (length p / BLOCK_SIZE + 1)
    /\ wrote (set_pos 0 (w_hdr w)) (w_hdr w') hdr
    /\ length hdr = 416
    /\ forall v, d_plan (w_in v) = [] -> d_plan (w_out v) = [] -> d_plan (w_hdr v) = [] ->
         at_cursor (w_hdr v) hdr -> d_pos (w_in v) = 0 ->
         d_data (w_in v) = body /\ all_zero (firstn 416 body) = false
         \/ d_data (w_in v) = zeros 416 ++ body ->
         exists v', decrypt_execute E true (er_raw_key req) v = (Ok tt, v')
           /\ wrote (w_out v) (w_out v') p.
Proof.
  intros E req w key HE p Hv Hm Hdt Hi Ho Hh Hk Hc.
  destruct (file_round_trip_detached_bs E BLOCK_SIZE req w key) as (w' & hdr & body & A1 & A2 & A3 & A4 & A5 & A6);
    auto using BLOCK_SIZE_pos.
  { intros. apply e_header_wf_v5; auto. eapply hash_known; eauto. }
  rewrite Hv in A5. cbn [get_size] in A5. rewrite A5 in A6.
  exists w', hdr, body. auto 10.
Qed.

Lemma file_round_trip_v4 : forall E req w key,
  env_ok E ->
  let p := d_data (w_in w) in
  ht_version (er_header_type req) = V4 -> ht_mode (er_header_type req) = StreamMode ->
  er_hashing_algorithm req = Blake3Balloon 4 ->
  er_detached req = false ->
  d_plan (w_in w) = [] -> d_plan (w_out w) = [] ->
  hash E (er_hashing_algorithm req) (er_raw_key req) (draw (w_rng w) 0 16) = Ok key ->
  (N.of_nat (length p / BLOCK_SIZE) <= counter_max E)%N ->
  exists w' file,
    encrypt_execute E req w = (Ok tt, w')
    /\ wrote (set_pos 0 (w_out w)) (w_out w') file
    /\ (d_data (w_out w) = [] -> d_data (w_out w') = file)
    /\ forall v, d_plan (w_in v) = [] -> d_plan (w_out v) = [] -> rest (w_in v) = file ->
         exists v', decrypt_execute E false (er_raw_key req) v = (Ok tt, v')
           /\ wrote (w_out v) (w_out v') p.
Proof.
  intros E req w key HE p Hv Hm Hb Hdt Hi Ho Hk Hc.
  apply (file_round_trip_bs E BLOCK_SIZE req w key); auto using BLOCK_SIZE_pos.
  intros. apply e_header_wf_v4; auto.
Qed.

(** A V4 file encrypted with another algorithm: decryption of anything succeeds
    only by forgery or KDF collision. *)
Lemma v4_other_hash_lost : forall E req w w' detached pw v v',
  env_ok E -> w_tr w = [] -> w_tr v = [] ->
  ht_version (er_header_type req) = V4 ->
  ~ In (er_hashing_algorithm req) [Argon2id 1; Argon2id 2; Blake3Balloon 4] ->
  encrypt_execute E req w = (Ok tt, w') ->
  decrypt_execute E detached pw v = (Ok tt, v') ->
  (exists c, In c (opened (w_tr v')) /\ forgery E (w_tr w') c)
  \/ (exists ha s, kdf_collision E (er_hashing_algorithm req) (er_raw_key req)
                     (draw (w_rng w) 0 16) ha pw s).
Proof.
  intros E req w w' detached pw v v' HE Htr Htr' Hv Hha He Hd.
  destruct (file_integrity E BLOCK_SIZE req w w' detached pw v _ v' HE BLOCK_SIZE_pos Htr Htr' He Hd)
    as (written & W & [Hf|[(i & s2 & key & Hi & H1 & H2)|(_ & _ & Hok)]]).
  - left. exact Hf.
  - right. exists (Argon2id i), s2.
    destruct (kdf_same_or_collision _ _ _ _ _ _ _ _ H2 H1) as [Heq|Hc]; [|exact Hc].
    exfalso. apply Hha. injection Heq as -> _ _. destruct Hi as [<-|[<-|[]]]; cbn; auto.
  - right. specialize (Hok eq_refl).
    destruct Hok as (-> & h & aad & d1 & d2 & D1 & D2 & D3 & D4 & (l & k & key & K1 & K2 & K3 & K4) & D5 & D6 & D7).
    destruct (kdf_same_or_collision _ _ _ _ _ _ _ _ K4 K3) as [Heq|Hc]; [|eauto].
    exfalso. apply Hha. injection Heq as -> _ _.
    destruct (accepted_inv _ _ _ _ D1) as (_ & _ & _ & _ & A5).
    rewrite D2, Hv in A5. assert (N1 : V4 <> V1) by (clear; discriminate).
    assert (N2 : V4 <> V2) by (clear; discriminate).
    destruct (A5 N1 N2) as (A6 & _). clear He Hd.
    destruct A6 as [(W1 & _)|[(W1 & W2 & k' & W3 & W4)|(W1 & _)]];
      try (rewrite D2, Hv in W1; discriminate W1).
    assert (Kl : l = [k']) by (rewrite W3 in K1; now inversion K1). rewrite Kl in K2. destruct K2 as [<-|[]].
    destruct W4 as (_ & W4 & _). right. right. left. now rewrite W4.
Qed.

Lemma wrong_key_holds : forall E detached pw v o v',
  env_ok E -> decrypt_execute E detached pw v = (o, v') ->
  ((forall h aad d, deserialize (header_source detached v) = (Ok (h, aad), d) ->
      forall mk, ~ unlocks E pw h mk) ->
   (exists e, o = Err e) /\ w_out v' = w_out v)
  /\ (w_tr v = [] ->
      (forall h aad d, deserialize (header_source detached v) = (Ok (h, aad), d) ->
         length (opened (w_tr v')) <= key_openings (ht_version (h_type h))) ->
      (exists e, o = Err e) /\ wrote (w_out v) (w_out v') []).
Proof.
  intros E detached pw v o v' HE H. split.
  - exact (wrong_key_writes_nothing E BLOCK_SIZE detached pw v o v' HE H).
  - exact (nothing_accepted_writes_nothing E BLOCK_SIZE detached pw v o v' HE H).
Qed.

Lemma unsupported_request_holds : forall E req w o w',
  env_ok E -> encrypt_execute E req w = (o, w') ->
  (~ supported req ->
   untouched (w_out w) (w_out w') /\ untouched (w_hdr w) (w_hdr w')
   /\ ((exists e, o = Err e)
       \/ (o = Panic /\ ht_version (er_header_type req) = V3
           /\ ht_mode (er_header_type req) = StreamMode)))
  /\ (ht_version (er_header_type req) <> V3 -> o <> Panic /\ o <> Diverge).
Proof.
  intros E req w o w' HE H. split.
  - intros Hs. exact (unsupported_request E BLOCK_SIZE req w o w' HE Hs H).
  - intros Hv. exact (encrypt_no_panic E BLOCK_SIZE req w o w' HE BLOCK_SIZE_pos Hv H).
Qed.

Lemma key_independent_holds : forall E detached t pw1 ha1 pw2 ha2 w u1 w1 u2 w2,
  env_ok E ->
  d_plan (w_in w) = [] -> d_plan (w_out w) = [] -> d_plan (w_hdr w) = [] ->
  encrypt_execute E (mkEncReq detached pw1 t ha1) w = (Ok u1, w1) ->
  encrypt_execute E (mkEncReq detached pw2 t ha2) w = (Ok u2, w2) ->
  let off := match ht_version t with V4 => 48 | _ => 32 end in
  let klen := match ht_version t with V4 => 48 | _ => 50 end in
  exists pre k1 k2 post body,
    length pre = off /\ length k1 = klen /\ length k2 = length k1
    /\ wrote (set_pos 0 (w_out w)) (w_out w1)
         (if detached then body else pre ++ k1 ++ post ++ body)
    /\ wrote (set_pos 0 (w_out w)) (w_out w2)
         (if detached then body else pre ++ k2 ++ post ++ body)
    /\ (if detached
        then wrote (set_pos 0 (w_hdr w)) (w_hdr w1) (pre ++ k1 ++ post)
             /\ wrote (set_pos 0 (w_hdr w)) (w_hdr w2) (pre ++ k2 ++ post)
        else w_hdr w1 = w_hdr w /\ w_hdr w2 = w_hdr w).
Proof.
  intros E detached t pw1 ha1 pw2 ha2 w u1 w1 u2 w2 HE Hi Ho Hh H1 H2.
  exact (key_independent E BLOCK_SIZE detached t pw1 ha1 pw2 ha2 w u1 w1 u2 w2 HE BLOCK_SIZE_pos Hi Ho Hh H1 H2).
Qed.

Lemma output_after_encrypt_holds : forall E req w w',
  env_ok E -> er_detached req = false ->
  d_plan (w_in w) = [] -> d_plan (w_out w) = [] ->
  encrypt_execute E req w = (Ok tt, w') ->
  exists h hdr aad body,
    h_type h = er_header_type req /\ serialize h = Ok hdr /\ create_aad h = Ok aad
    /\ is_ciphertext E (ht_algorithm (er_header_type req)) (draw (w_rng w) 16 32) (h_nonce h)
         aad BLOCK_SIZE (d_data (w_in w)) body
    /\ d_data (w_out w') = hdr ++ body ++ skipn (length (hdr ++ body)) (d_data (w_out w)).
Proof.
  intros E req w w' HE Hd Hi Ho H.
  exact (output_after_encrypt E BLOCK_SIZE req w w' HE BLOCK_SIZE_pos Hd Hi Ho H).
Qed.
