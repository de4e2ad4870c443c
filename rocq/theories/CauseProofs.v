(** Proofs for PropertiesCause.v. *)
From Coq Require Import List Arith NArith ZArith Lia Bool.
From Verif Require Import Bytes Outcome IO Primitives Crypto Header Stream KeyModel EncDec KeyOps.
From Verif Require Import BytesFacts IOSpec IOFacts HeaderSpec HeaderFacts HeaderProofs.
From Verif Require Import StreamSpec StreamFacts StreamProofs FileSpec FileFacts FileProofs DecryptSpec DecryptProofs.
From Verif Require Import KeySpec KeyFacts KeyProofs KeyResults CauseSpec.
Local Open Scope nat_scope.

Lemma nil_or : forall {A} (l : list A), l = [] \/ l <> [].
Proof. intros A [|x l]; [now left|right; discriminate]. Qed.

Lemma bind_assoc : forall {S E A B C} (m : M S E A) (f : A -> M S E B) (g : B -> M S E C) s,
  bind (bind m f) g s = bind m (fun x => bind (f x) g) s.
Proof. intros. unfold bind. destruct (m s) as [[| | |] s1]; reflexivity. Qed.

(** ** Decrypting *)

Lemma body_cause : forall E pw h aad w e w', env_ok E -> header_shape h ->
  dec_body E BLOCK_SIZE pw h aad w = (Err e, w') ->
  match e with
  | DecReadEncryptedData => d_plan (w_in w) <> []
  | DecDecryptMasterKey => forall mk, ~ unlocks E pw h mk
  | DecDecryptData =>
      exists mk, unlocks E pw h mk
        /\ ((forall p, ~ body_opens E h aad mk (rest (w_in w)) p)
            \/ ht_mode (h_type h) = StreamMode /\ (d_plan (w_in w) <> [] \/ d_plan (w_out w) <> []))
  | DecWriteData =>
      exists mk p, unlocks E pw h mk /\ body_opens E h aad mk (rest (w_in w)) p
        /\ ht_mode (h_type h) = MemoryMode /\ d_plan (w_out w) <> []
  | _ => False
  end.
Proof.
  intros E pw h aad w e w' HE Hsh H.
  assert (ST : forall mk, unlocks E pw h mk -> ht_mode (h_type h) = StreamMode ->
    exists mk, unlocks E pw h mk
        /\ ((forall p, ~ body_opens E h aad mk (rest (w_in w)) p)
            \/ ht_mode (h_type h) = StreamMode /\ (d_plan (w_in w) <> [] \/ d_plan (w_out w) <> []))).
  { intros mk U M. exists mk. split; [exact U|].
    destruct (nil_or (d_plan (w_in w))) as [PI|PI]; [|right; auto].
    destruct (nil_or (d_plan (w_out w))) as [PO|PO]; [|right; auto].
    left. intros p BO.
    destruct (dec_body_complete E pw h aad mk p w HE Hsh U BO PI PO) as (w2 & D & _). congruence. }
  unfold dec_body in H. cbv zeta in H.
  destruct (decrypt_master_key_spec E pw h (w_tr w) HE Hsh) as [(mk & kc & Hu & Hl & Hd & _)|(Hn & Hd)].
  - destruct (ht_mode (h_type h)) eqn:Hm.
    + destruct (dev_read_to_end (w_in w)) as [o d1] eqn:RD. pose proof RD as RD'.
      apply dev_read_to_end_spec in RD as (R1 & R2 & R3 & R4).
      destruct o as [data|e1| |]; try contradiction.
      2:{ erewrite bind_err in H by (apply map_err_err, zoom_eq; exact RD'). inversion H. exact R4. }
      erewrite bind_ok in H by (apply map_err_ok, zoom_eq; exact RD').
      erewrite bind_ok in H by (apply map_err_ok, zoom_eq; exact Hd).
      erewrite bind_ok in H by (apply map_err_ok; unfold lift, ciphers_initialize; rewrite Hl; reflexivity).
      destruct Hsh as (Hns & _). unfold nonce_sized in Hns. rewrite Hm in Hns.
      change (skipn (d_pos (w_in w)) (d_data (w_in w))) with (rest (w_in w)) in R4. subst data.
      destruct (aead_dec E (ht_algorithm (h_type h)) mk (h_nonce h) aad (rest (w_in w))) as [m|] eqn:Hdec.
      * erewrite bind_ok in H.
        2:{ apply map_err_ok, zoom_eq. unfold ciphers_decrypt. cbn [ci_alg ci_key].
            rewrite Hns, Nat.eqb_refl, Hdec. reflexivity. }
        apply map_err_inv in H as [(x2 & H & X)|[(e2 & H & X)|[(H & X)|(H & X)]]]; try discriminate X.
        injection X as ->. apply zoom_inv in H as (d2 & H & ->). cbn [w_in w_out w_hdr w_rng w_tr] in *.
        apply dev_write_all_spec in H as (_ & _ & W).
        exists mk, m. split; [exact Hu|]. split; [unfold body_opens, opens; rewrite Hm; exact Hdec|auto].
      * erewrite bind_err in H.
        2:{ apply map_err_err, zoom_eq. unfold ciphers_decrypt. cbn [ci_alg ci_key].
            rewrite Hns, Nat.eqb_refl, Hdec. reflexivity. }
        inversion H. exists mk. split; [exact Hu|]. left. intros p X. unfold body_opens, opens in X.
        rewrite Hm in X. congruence.
    + erewrite bind_ok in H by (apply map_err_ok, zoom_eq; exact Hd).
      pose proof Hsh as (Hns & _). unfold nonce_sized in Hns. rewrite Hm in Hns.
      erewrite bind_ok in H
        by (apply map_err_ok; unfold lift; rewrite dec_init_complete by assumption; reflexivity).
      apply map_err_inv in H as [(x2 & H & X)|[(e2 & H & X)|[(H & X)|(H & X)]]]; try discriminate X.
      injection X as ->. eapply ST; eauto.
  - destruct (ht_mode (h_type h)) eqn:Hm.
    + destruct (dev_read_to_end (w_in w)) as [o d1] eqn:RD. pose proof RD as RD'.
      apply dev_read_to_end_spec in RD as (R1 & R2 & R3 & R4).
      destruct o as [data|e1| |]; try contradiction.
      2:{ erewrite bind_err in H by (apply map_err_err, zoom_eq; exact RD'). inversion H. exact R4. }
      erewrite bind_ok in H by (apply map_err_ok, zoom_eq; exact RD').
      erewrite bind_err in H by (apply map_err_err, zoom_eq; exact Hd). inversion H. exact Hn.
    + erewrite bind_err in H by (apply map_err_err, zoom_eq; exact Hd). inversion H. exact Hn.
Qed.

Lemma skip_cause : forall n d o d', skip_empty_header n d = (o, d') ->
  d_data d' = d_data d /\ (d_plan d = [] -> d_plan d' = [])
  /\ (o = Ok tt \/ (o = Err DecReadEncryptedData \/ o = Err DecRewindDataReader) /\ d_plan d <> []).
Proof.
  intros n d o d' H. unfold skip_empty_header in H.
  assert (RW : forall d1, d_data d1 = d_data d -> (d_plan d = [] -> d_plan d1 = []) ->
    map_err (fun _ => DecRewindDataReader) dev_rewind d1 = (o, d') ->
    d_data d' = d_data d /\ (d_plan d = [] -> d_plan d' = [])
    /\ (o = Ok tt \/ (o = Err DecReadEncryptedData \/ o = Err DecRewindDataReader) /\ d_plan d <> [])).
  { intros d1 D P X. unfold map_err in X. destruct (dev_rewind d1) as [o1 d2] eqn:Y.
    unfold dev_rewind in Y. apply dev_seek_start_spec in Y.
    destruct Y as (Y1 & Y2 & Y3 & Y4).
    assert (PP : d_plan d = [] -> d_plan d2 = []).
    { intros Z. specialize (P Z). eapply plan_suffix_nil; [apply plan_step_suffix; exact Y1|exact P]. }
    destruct o1 as [[]|e1| |]; try contradiction; inversion X; subst; split; [congruence| |congruence|]; split; auto.
    right. split; [auto|]. intros Z. specialize (P Z). destruct Y4 as (_ & Y4). contradiction. }
  apply bind_inv in H as [(b & d1 & H1 & H)|Hb].
  - assert (X : d_data d1 = d_data d /\ (d_plan d = [] -> d_plan d1 = [])).
    { unfold or_else in H1. destruct (dev_read_exact n d) as [o1 d2] eqn:RE.
      apply dev_read_exact_spec in RE as (R1 & R2 & R3 & R4).
      destruct o1 as [b'|[e1 b']| |]; try contradiction; [inversion H1; subst; auto|].
      cbn [fst snd] in H1. destruct e1; inversion H1; subst; auto. }
    destruct X as (X1 & X2). destruct (negb (all_zero b)).
    + eapply RW; eauto.
    + inversion H; subst. auto.
  - assert (X : exists e, or_else (dev_read_exact n)
        (fun e => match fst e with
                  | EUnexpectedEof => ret (snd e ++ zeros (n - length (snd e)))
                  | _ => err DecReadEncryptedData
                  end) d = (e, d') /\ (forall b, e <> Ok b) /\ o = match e with Ok _ => Ok tt | Err x => Err x | Panic => Panic | Diverge => Diverge end).
    { destruct Hb as [(e & Hb & ->)|[(Hb & ->)|(Hb & ->)]]; eexists; (split; [exact Hb|split; [discriminate|reflexivity]]). }
    destruct X as (x & X & NB & ->). unfold or_else in X. destruct (dev_read_exact n d) as [o1 d2] eqn:RE.
    apply dev_read_exact_spec in RE as (R1 & R2 & R3 & R4).
    destruct o1 as [b'|[e1 b']| |]; try contradiction.
    + inversion X; subst. exfalso. eapply NB. reflexivity.
    + destruct R4 as (k & _ & _ & _ & _ & _ & R6). cbn [fst snd] in X.
      destruct e1; inversion X; subst;
        try (exfalso; eapply NB; reflexivity);
        (split; [exact R1|split; [exact R3|right; split; [now left|]]]; intros Z; specialize (R6 Z); discriminate).
Qed.

Lemma decrypt_cause : forall E detached pw v e v', env_ok E ->
  decrypt_execute E detached pw v = (Err e, v') -> dec_cause E detached pw v e.
Proof.
  intros E detached pw v e v' HE H. unfold decrypt_execute in H. rewrite decrypt_execute_eq in H.
  assert (GO : forall h aad d1 v1, deserialize (header_source detached v) = (Ok (h, aad), d1) ->
    d_data (w_in v1) = d_data (w_in v) -> (detached = false -> w_in v1 = d1) -> w_out v1 = w_out v ->
    (d_plan (w_in v) = [] -> d_plan (w_in v1) = []) ->
    dec_body E BLOCK_SIZE pw h aad v1 = (Err e, v') -> dec_cause E detached pw v e).
  { intros h aad d1 v1 D D1 D2 O P B.
    pose proof (deserialize_shape _ _ _ _ D) as SH.
    pose proof (body_cause _ _ _ _ _ _ _ HE SH B) as C.
    destruct e; cbn [dec_cause]; try contradiction.
    - intros Z. exact (C (P Z)).
    - exists h, aad, d1. auto.
    - destruct C as (mk & U & C). exists h, aad, d1, (w_in v1), mk. rewrite O in C. auto 6.
    - destruct C as (mk & p & U & BO & M & C). exists h, aad, d1, (w_in v1), mk, p. rewrite O in C. auto 8. }
  unfold dec_header in H. destruct detached.
  - destruct (deserialize (w_hdr v)) as [od d1] eqn:D.
    pose proof (deserialize_spec _ _ _ D) as (S1 & S2 & S3 & S4).
    destruct od as [[h aad]|e1| |]; try contradiction.
    2:{ erewrite bind_err in H by (erewrite bind_err by (apply map_err_err, zoom_eq; exact D); reflexivity).
        inversion H. cbn. intros h aad d' X. congruence. }
    rewrite bind_assoc in H. erewrite bind_ok in H by (apply map_err_ok, zoom_eq; exact D). cbn [fst] in H.
    rewrite bind_assoc in H.
    destruct (skip_empty_header (get_size (ht_version (h_type h))) (w_in v)) as [os d2] eqn:SK.
    pose proof (skip_cause _ _ _ _ SK) as (K1 & K2 & K3).
    destruct K3 as [->|(K3 & K4)].
    + erewrite bind_ok in H by (apply zoom_eq; exact SK). cbn [w_in w_out w_hdr w_rng w_tr] in H.
      unfold ret in H. erewrite bind_ok in H by reflexivity. cbv beta iota in H.
      eapply GO; [exact D| | | | |exact H]; cbn [w_in w_out]; auto. discriminate.
    + destruct K3 as [->| ->]; (erewrite bind_err in H by (apply zoom_eq; exact SK)); inversion H; cbn; auto.
  - destruct (deserialize (w_in v)) as [od d1] eqn:D.
    pose proof (deserialize_spec _ _ _ D) as (S1 & S2 & S3 & S4).
    destruct od as [[h aad]|e1| |]; try contradiction.
    2:{ erewrite bind_err in H by (apply map_err_err, zoom_eq; exact D).
        inversion H. cbn. intros h aad d' X. congruence. }
    erewrite bind_ok in H by (apply map_err_ok, zoom_eq; exact D). cbv beta iota in H.
    eapply GO; [exact D| | | | |exact H]; cbn [w_in w_out]; auto.
Qed.

(** The other way round, on an input without failures. *)
Lemma decrypt_tells : forall E detached pw v o v', env_ok E -> d_plan (w_in v) = [] ->
  decrypt_execute E detached pw v = (o, v') ->
  (headless (header_source detached v) -> o = Err DecDeserializeHeader)
  /\ (forall h aad d1, deserialize (header_source detached v) = (Ok (h, aad), d1) ->
        (forall mk, ~ unlocks E pw h mk) -> o = Err DecDecryptMasterKey)
  /\ (detached = false -> forall h aad d1 mk, deserialize (w_in v) = (Ok (h, aad), d1) ->
        unlocks E pw h mk -> (forall p, ~ body_opens E h aad mk (rest d1) p) -> o = Err DecDecryptData)
  /\ (detached = false -> forall h aad d1 mk p, deserialize (w_in v) = (Ok (h, aad), d1) ->
        unlocks E pw h mk -> body_opens E h aad mk (rest d1) p ->
        o = Ok tt
        \/ d_plan (w_out v) <> []
           /\ o = Err (match ht_mode (h_type h) with MemoryMode => DecWriteData | StreamMode => DecDecryptData end)).
Proof.
  intros E detached pw v o v' HE PI H.
  assert (OC : o = Ok tt \/ exists e, o = Err e).
  { pose proof H as H'. apply decrypt_execute_spec in H'; [|exact HE].
    destruct H' as [(e & X & _)|(h & aad & d1 & v1 & D & SH & EO & _ & ED & _ & EM & EN)]; [eauto|].
    destruct EN as (_ & _ & _ & X & _). exact X. }
  destruct OC as [->|(e & ->)].
  - destruct (decrypt_sound _ _ _ _ _ HE H) as (h & aad & d1 & d2 & mk & ct & p & D & D2 & D3 & U & BO & _ & _ & CT).
    assert (P2 : detached = false -> d_plan d2 = []).
    { intros X. rewrite (D3 X). subst detached. cbn in D. apply deserialize_spec in D as (_ & _ & S3 & _). auto. }
    split; [intros X; exfalso; eapply X; eauto|].
    split; [intros h' aad' d1' D' X; exfalso; rewrite D in D'; inversion D'; subst; eapply X; eauto|].
    split; [|auto].
    intros X h' aad' d1' mk' D' U' X'. exfalso. subst detached. cbn in D. rewrite D in D'. inversion D'; subst.
    rewrite (unlocks_unique _ _ _ _ _ U' U) in X'.
    rewrite (D3 eq_refl) in CT, P2. rewrite CT in BO by (right; apply no_short_nil; auto). eapply X'; eauto.
  - pose proof (decrypt_cause _ _ _ _ _ _ HE H) as C.
    assert (P2 : detached = false -> forall h aad d1, deserialize (w_in v) = (Ok (h, aad), d1) -> d_plan d1 = []).
    { intros _ h aad d1 D. apply deserialize_spec in D as (_ & _ & S3 & _). auto. }
    split; [|split; [|split]].
    + intros X. destruct e; cbn in C; auto; try contradiction; try tauto;
        (destruct C as (h & aad & d1 & C); exfalso; repeat (destruct C as (? & C)); eapply X; eauto).
    + intros h aad d1 D X. destruct e; cbn in C; auto; try contradiction; try tauto.
      * exfalso. eapply C; eauto.
      * destruct C as (h' & aad' & d1' & d2 & mk & D' & _ & _ & U & _). rewrite D in D'. inversion D'; subst.
        exfalso. eapply X; eauto.
      * destruct C as (h' & aad' & d1' & d2 & mk & p & D' & _ & _ & U & _). rewrite D in D'. inversion D'; subst.
        exfalso. eapply X; eauto.
    + intros -> h aad d1 mk D U X. destruct e; cbn in C; auto; try contradiction; try tauto.
      * exfalso. eapply C; eauto.
      * destruct C as (h' & aad' & d1' & D' & C). rewrite D in D'. inversion D'; subst. exfalso. eapply C; eauto.
      * destruct C as (h' & aad' & d1' & d2 & mk' & p & D' & _ & Y & U' & BO & _). rewrite D in D'. inversion D'; subst.
        rewrite (Y eq_refl) in BO. rewrite (unlocks_unique _ _ _ _ _ U' U) in BO. exfalso. eapply X; eauto.
    + intros -> h aad d1 mk p D U X. right.
      destruct e; cbn in C; auto; try contradiction; try tauto.
      * exfalso. eapply C; eauto.
      * destruct C as (h' & aad' & d1' & D' & C). rewrite D in D'. inversion D'; subst. exfalso. eapply C; eauto.
      * destruct C as (h' & aad' & d1' & d2 & mk' & D' & _ & Y & U' & [C|(M & C)]);
          rewrite D in D'; inversion D'; subst; rewrite (Y eq_refl) in C.
        { rewrite (unlocks_unique _ _ _ _ _ U' U) in C. exfalso. eapply C; eauto. }
        rewrite M. split; [|reflexivity]. destruct C as [C|C]; [|exact C]. exfalso. apply C. eapply P2; eauto.
      * destruct C as (h' & aad' & d1' & d2 & mk' & q & D' & _ & Y & U' & BO & M & C). rewrite D in D'. inversion D'; subst.
        rewrite M. auto.
Qed.

(** ** Key operations *)

Lemma open_cause : forall w e w1, open_header w = (Err e, w1) ->
  match e with
  | KHeaderDeserialize => headless (w_in w)
  | KUnsupported =>
      exists h aad d1, deserialize (w_in w) = (Ok (h, aad), d1) /\ ht_version (h_type h) <> V5
  | KSeek => d_plan (w_in w) <> []
  | _ => False
  end.
Proof.
  intros w e w1 H. unfold open_header in H.
  destruct (deserialize (w_in w)) as [od d1] eqn:Hd.
  pose proof (deserialize_spec _ _ _ Hd) as (S1 & S2 & S3 & S4).
  destruct od as [[h aad]|e1| |]; try contradiction.
  2:{ erewrite bind_err in H by (apply map_err_err, zoom_eq; exact Hd).
      inversion H. intros h aad d' X. congruence. }
  erewrite bind_ok in H by (apply map_err_ok, zoom_eq; exact Hd). cbn [fst] in H.
  destruct (below_v5 (ht_version (h_type h))) eqn:Hb.
  { inversion H; subst. exists h, aad, d1. split; [reflexivity|]. intros X. rewrite X in Hb. discriminate. }
  assert (Hv : ht_version (h_type h) = V5) by (destruct (ht_version (h_type h)); auto; discriminate).
  destruct (v5_deserialize_wf _ _ _ _ Hd Hv) as ((_ & _ & l & Hl & _) & _).
  destruct (dev_seek_back (get_size (ht_version (h_type h))) d1) as [os d2] eqn:SB. pose proof SB as SB'.
  apply dev_seek_back_spec in SB as (P & A1 & A2 & A3).
  destruct os as [[]|e1| |]; try contradiction.
  - erewrite bind_ok in H by (apply map_err_ok, zoom_eq; exact SB'). rewrite Hl in H. discriminate.
  - erewrite bind_err in H by (apply map_err_err, zoom_eq; exact SB'). inversion H; subst.
    destruct A3 as (_ & [A3|A3]); [intros X; auto|]. destruct S4 as (_ & _ & _ & S4). lia.
Qed.

Lemma search_cause : forall E pw h slots tr o tr', env_ok E ->
  Forall (slot_sized (ht_algorithm (h_type h))) slots ->
  decrypt_v5_master_key_with_index E slots pw (ht_algorithm (h_type h)) tr = (o, tr') ->
  (exists mk i, o = Ok (mk, i) /\ known E pw h slots /\ length mk = 32 /\ i < length slots)
  \/ (o = Err KIncorrectKey /\ ~ known E pw h slots)
  \/ (o = Err KKeyHash /\ exists k, In k slots /\ hash E (ks_hash k) pw (ks_salt k) = Err tt).
Proof.
  intros E pw h slots tr o tr' HE Hf H. unfold decrypt_v5_master_key_with_index in H.
  set (a := ht_algorithm (h_type h)) in *.
  destruct (search_spec E a pw slots 0 tr HE Hf)
    as [(j & k' & key' & mk & A1 & A2 & A3 & A4 & A5 & A6)|[(j & k' & A1 & A2 & A3 & A4)|(A1 & A2)]].
  - erewrite bind_ok in H by exact A6. cbn [fst] in H.
    assert (Hfd : found E a pw slots j key' mk k') by (repeat split; auto).
    apply found_first_open in Hfd.
    destruct (bytes_eqb mk (zeros MASTER_KEY_LEN)) eqn:Hz; inversion H; subst.
    + apply bytes_eqb_eq in Hz. right. left. split; [reflexivity|].
      intros (i & mk' & F & NZ). destruct (first_open_unique _ _ _ _ _ _ _ _ Hfd F) as (_ & <-). auto.
    + apply bytes_eqb_neq in Hz. left. exists mk, (0 + j). split; [reflexivity|]. split; [exists j, mk; auto|].
      split; [exact A5|]. cbn. apply nth_error_Some. congruence.
  - erewrite bind_err in H by exact A4. inversion H; subst. right. right. split; [reflexivity|].
    exists k'. split; [eapply nth_error_In; eauto|exact A2].
  - erewrite bind_ok in H by exact A2. cbn [fst] in H. rewrite bytes_eqb_refl in H. inversion H; subst.
    right. left. split; [reflexivity|]. intros (i & mk & (k & K1 & K2 & _) & _).
    apply (shut_not_open E a pw k mk); [eapply A1, nth_error_In; eauto|exact K2].
Qed.

Lemma rewrite_cause : forall h slots w e w', wf_v5 (with_slots h slots) ->
  rewrite_header h slots w = (Err e, w') -> e = KHeaderWrite /\ d_plan (w_in w) <> [].
Proof.
  intros h slots w e w' W H.
  destruct (rewrite_header_spec _ _ _ _ _ W H) as (_ & _ & _ & _ & b & n & _ & _ & _ & _ & X & _).
  destruct X as [X|(X & _ & Y)]; [discriminate|]. inversion X. auto.
Qed.

Lemma opened_cause : forall E op K w e w', env_ok E ->
  opened_with E (old_password op) K w = (Err e, w') ->
  key_cause E op w e
  \/ exists h slots mk i w1, v5_header (w_in w) h slots /\ known E (old_password op) h slots
       /\ length mk = 32 /\ i < length slots /\ plan_suffix (w_in w) (w_in w1)
       /\ K h slots (mk, i) w1 = (Err e, w').
Proof.
  intros E op K w e w' HE H. unfold opened_with in H.
  destruct (open_header w) as [oh w1] eqn:Hh.
  pose proof (open_header_spec _ _ _ Hh) as (A1 & A2 & A3 & A4 & A5 & A6 & A7 & A8).
  destruct oh as [[h slots]|e1| |]; try contradiction.
  2:{ erewrite bind_err in H by exact Hh. inversion H; subst. left. apply open_cause in Hh.
      destruct e; try contradiction; exact Hh. }
  erewrite bind_ok in H by exact Hh. cbv beta iota in H.
  destruct A8 as (B1 & B2 & B3 & B4).
  assert (Hv : v5_header (w_in w) h slots) by (split; [|split]; auto).
  pose proof (v5_header_slots _ _ _ Hv) as (_ & Hs). apply Forall_slot_wf_sized in Hs.
  destruct (decrypt_v5_master_key_with_index E slots (old_password op) (ht_algorithm (h_type h)) (w_tr w1)) as [om t1] eqn:Hm.
  destruct (search_cause _ _ _ _ _ _ _ HE Hs Hm) as [(mk & i & -> & KN & L & I)|[(-> & KN)|(-> & KN)]].
  - erewrite bind_ok in H by (apply zoom_eq; exact Hm). right. exists h, slots, mk, i. eexists.
    do 4 (split; [assumption|]). split; [|exact H]. exact A7.
  - erewrite bind_err in H by (apply zoom_eq; exact Hm). inversion H; subst. left. cbn. eauto.
  - erewrite bind_err in H by (apply zoom_eq; exact Hm). inversion H; subst. left. cbn. eauto.
Qed.

Lemma key_cause_holds : forall E op w e w', env_ok E ->
  run_op E op w = (Err e, w') -> key_cause E op w e.
Proof.
  intros E op w e w' HE H.
  assert (Hfin : forall h slots i new w1, v5_header (w_in w) h slots -> i < length slots ->
     (forall x y z, op = OpAdd x y z -> length slots < 4) ->
     (op_new op <> None -> slot_wf (ht_algorithm (h_type h)) new) ->
     plan_suffix (w_in w) (w_in w1) ->
     rewrite_header h (edited op i new slots) w1 = (Err e, w') -> key_cause E op w e).
  { intros h slots i new w1 Hv Hi H4 Hwf Hp Hr.
    pose proof (v5_header_slots _ _ _ Hv) as (Q1 & Q2).
    apply rewrite_cause in Hr.
    - destruct Hr as (-> & Hr). cbn. intros X. apply Hr. eapply plan_suffix_nil; eauto.
    - apply wf_v5_slots.
      + eapply v5_header_wf; eauto.
      + rewrite edited_length by assumption. destruct op; try lia. specialize (H4 _ _ _ eq_refl). lia.
      + now apply edited_wf. }
  destruct op as [old new ha|old new ha|old|pw]; cbn [run_op] in H.
  - change (key_add E old new ha) with (opened_with E (old_password (OpAdd old new ha)) (fun h slots mk =>
       if length slots =? 4 then err KTooManyKeyslots
       else
         salt <- gen_salt ;;
         nonce <- gen_nonce (ht_algorithm (h_type h)) MemoryMode ;;
         key_new <- map_err (fun _ => KKeyHash) (lift (hash E ha new salt)) ;;
         enc <- on_tr (encrypt_master_key E (fst mk) key_new nonce (ht_algorithm (h_type h))) ;;
         rewrite_header h (slots ++ [mkSlot ha enc nonce salt]))) in H.
    apply opened_cause in H as [H|(h & slots & mk & i & w1 & Hv & KN & L & I & P & H)]; [exact H| |exact HE].
    destruct (length slots =? 4) eqn:E4.
    { apply Nat.eqb_eq in E4. inversion H; subst. cbn. exists h, slots, old, new, ha. auto. }
    apply Nat.eqb_neq in E4.
    erewrite bind_ok in H by apply fill_bytes_eq.
    erewrite bind_ok in H by apply fill_bytes_eq.
    cbn [w_in w_out w_hdr w_rng w_tr adv fst] in H. rewrite draw_shift in H.
    change (SALT_LEN + 0) with 16 in H. change SALT_LEN with 16 in H.
    destruct (hash_cases E ha new (draw (w_rng w1) 0 16)) as [(key' & Hk)|Hk].
    2:{ erewrite bind_err in H by (unfold map_err, lift; rewrite Hk; reflexivity).
        inversion H; subst. cbn. exists h, slots. split; [exact Hv|]. right. split; [exact KN|].
        exists new, ha, (draw (w_rng w1) 0 16). auto. }
    pose proof (hash_length _ _ _ _ _ HE Hk) as Hlk.
    erewrite bind_ok in H by (unfold map_err, lift; rewrite Hk; reflexivity).
    destruct (encrypt_master_key_ok E mk key' (draw (w_rng w1) 16 (get_nonce_len (ht_algorithm (h_type h)) MemoryMode))
      (ht_algorithm (h_type h)) (w_tr w1) HE Hlk (draw_length _ _ _) L) as (enc & En1 & En2 & En3).
    erewrite bind_ok in H by (apply zoom_eq; exact En3).
    pose proof (v5_header_slots _ _ _ Hv) as (Q1 & _).
    eapply (Hfin h slots i _ _ Hv I); [| | |exact H]; auto.
    + intros. lia.
    + intros _. split; [|eapply hash_known; eauto]. unfold slot_sized. cbn [ks_enc ks_nonce ks_salt]. rewrite !draw_length. auto.
  - change (key_change E old new ha) with (opened_with E (old_password (OpChange old new ha)) (fun h slots mk =>
         salt <- gen_salt ;;
         key_new <- map_err (fun _ => KKeyHash) (lift (hash E ha new salt)) ;;
         nonce <- gen_nonce (ht_algorithm (h_type h)) MemoryMode ;;
         enc <- on_tr (encrypt_master_key E (fst mk) key_new nonce (ht_algorithm (h_type h))) ;;
         if snd mk <? length slots then
           rewrite_header h (replace_nth (snd mk) (mkSlot ha enc nonce salt) slots)
         else panic)) in H.
    apply opened_cause in H as [H|(h & slots & mk & i & w1 & Hv & KN & L & I & P & H)]; [exact H| |exact HE].
    erewrite bind_ok in H by apply fill_bytes_eq.
    cbn [w_in w_out w_hdr w_rng w_tr adv fst snd] in H. change SALT_LEN with 16 in H.
    destruct (hash_cases E ha new (draw (w_rng w1) 0 16)) as [(key' & Hk)|Hk].
    2:{ erewrite bind_err in H by (unfold map_err, lift; rewrite Hk; reflexivity).
        inversion H; subst. cbn. exists h, slots. split; [exact Hv|]. right. split; [exact KN|].
        exists new, ha, (draw (w_rng w1) 0 16). auto. }
    pose proof (hash_length _ _ _ _ _ HE Hk) as Hlk.
    erewrite bind_ok in H by (unfold map_err, lift; rewrite Hk; reflexivity).
    erewrite bind_ok in H by apply fill_bytes_eq.
    cbn [w_in w_out w_hdr w_rng w_tr adv] in H. rewrite draw_shift in H. change (16 + 0) with 16 in H.
    destruct (encrypt_master_key_ok E mk key' (draw (w_rng w1) 16 (get_nonce_len (ht_algorithm (h_type h)) MemoryMode))
      (ht_algorithm (h_type h)) (w_tr w1) HE Hlk (draw_length _ _ _) L) as (enc & En1 & En2 & En3).
    erewrite bind_ok in H by (apply zoom_eq; exact En3).
    destruct (Nat.ltb_spec i (length slots)) as [_|]; [|lia].
    rewrite replace_nth_eq in H by assumption.
    eapply (Hfin h slots i _ _ Hv I); [| | |exact H]; auto.
    + discriminate.
    + intros _. split; [|eapply hash_known; eauto]. unfold slot_sized. cbn [ks_enc ks_nonce ks_salt]. rewrite !draw_length. auto.
  - change (key_delete E old) with (opened_with E (old_password (OpDelete old)) (fun h slots mk =>
         if snd mk <? length slots then rewrite_header h (remove_nth (snd mk) slots)
         else panic)) in H.
    apply opened_cause in H as [H|(h & slots & mk & i & w1 & Hv & KN & L & I & P & H)]; [exact H| |exact HE].
    cbn [snd] in H. destruct (Nat.ltb_spec i (length slots)) as [_|]; [|lia].
    rewrite remove_nth_eq in H by assumption.
    eapply (Hfin h slots i (mkSlot (Argon2id 0) [] [] []) w1 Hv I); [discriminate| |exact P|exact H].
    intros X. now elim X.
  - unfold key_verify in H.
    destruct (deserialize (w_in w)) as [od d1] eqn:Hd.
    pose proof (deserialize_spec _ _ _ Hd) as (S1 & S2 & S3 & S4).
    destruct od as [[h aad]|e1| |]; try contradiction.
    2:{ erewrite bind_err in H by (apply map_err_err, zoom_eq; exact Hd).
        inversion H; subst. cbn. intros h aad d' X. congruence. }
    erewrite bind_ok in H by (apply map_err_ok, zoom_eq; exact Hd). cbn [fst] in H.
    destruct (below_v5 (ht_version (h_type h))) eqn:Hb.
    { assert (X : e = KUnsupported) by (unfold err in H; congruence). subst e. cbn.
      exists h, aad, d1. split; [exact Hd|]. intros X. rewrite X in Hb. discriminate. }
    assert (Hv : ht_version (h_type h) = V5) by (destruct (ht_version (h_type h)); auto; discriminate).
    destruct (v5_deserialize_wf _ _ _ _ Hd Hv) as ((_ & _ & slots & Hl & _) & _). rewrite Hl in H.
    assert (V : v5_header (w_in w) h slots) by (split; [|split]; eauto).
    pose proof (v5_header_slots _ _ _ V) as (_ & Hs). apply Forall_slot_wf_sized in Hs.
    destruct (decrypt_v5_master_key_with_index E slots pw (ht_algorithm (h_type h)) (w_tr w)) as [om t1] eqn:Hm.
    destruct (search_cause _ _ _ _ _ _ _ HE Hs Hm) as [(mk & i & -> & KN & L & I)|[(-> & KN)|(-> & KN)]].
    + erewrite bind_ok in H by (apply zoom_eq; exact Hm). discriminate.
    + erewrite bind_err in H by (apply zoom_eq; exact Hm).
      assert (X : e = KIncorrectKey) by congruence. subst e. cbn. eauto.
    + erewrite bind_err in H by (apply zoom_eq; exact Hm).
      assert (X : e = KKeyHash) by congruence. subst e. cbn. eauto.
Qed.

Lemma key_tells : forall E op w o w', env_ok E -> d_plan (w_in w) = [] ->
  run_op E op w = (o, w') ->
  (headless (w_in w) -> o = Err KHeaderDeserialize)
  /\ (forall h aad d1, deserialize (w_in w) = (Ok (h, aad), d1) -> ht_version (h_type h) <> V5 ->
        o = Err KUnsupported)
  /\ (forall h slots, v5_header (w_in w) h slots -> kdf_accepts E (old_password op) slots ->
        ~ known E (old_password op) h slots -> o = Err KIncorrectKey)
  /\ (forall h slots old new ha, op = OpAdd old new ha -> v5_header (w_in w) h slots ->
        kdf_accepts E old slots -> (forall salt, exists key, hash E ha new salt = Ok key) ->
        known E old h slots -> length slots = 4 -> o = Err KTooManyKeyslots).
Proof.
  intros E op w o w' HE PI H.
  destruct (op_cases E op w o w' HE H) as (_ & _ & _ & OC).
  assert (OP : (exists e, o = Err e) \/ exists h slots i key mk k, op_pre E op (w_in w) (w_rng w) h slots i key mk k).
  { destruct OC as [(e & -> & _)|[(_ & _ & _ & X)|(_ & h & slots & i & key & mk & k & new & b & n & X & _)]]; eauto 12. }
  clear OC. destruct OP as [(e & ->)|(h & slots & i & key & mk & k & (P1 & P2 & P3 & P4 & P5))].
  - pose proof (key_cause_holds _ _ _ _ _ HE H) as C.
    split; [|split; [|split]].
    + intros X. destruct e; cbn in C; auto; try contradiction; exfalso.
      * destruct C as (h & aad & d1 & C & _). eapply X; eauto.
      * destruct C as (h & slots & (_ & _ & aad & d & C) & _). eapply X; eauto.
      * destruct C as (h & slots & old & new & ha & _ & (_ & _ & aad & d & C) & _). eapply X; eauto.
      * destruct C as (h & slots & (_ & _ & aad & d & C) & _). eapply X; eauto.
    + intros h aad d1 D X. destruct e; cbn in C; auto; try contradiction; exfalso.
      * destruct C as (h' & slots & (Y & _ & aad' & d & C) & _). rewrite D in C. inversion C; subst. auto.
      * destruct C as (h' & slots & old & new & ha & _ & (Y & _ & aad' & d & C) & _). rewrite D in C. inversion C; subst. auto.
      * destruct C as (h' & slots & (Y & _ & aad' & d & C) & _). rewrite D in C. inversion C; subst. auto.
      * eapply C; eauto.
    + intros h slots V KA NK. destruct e; cbn in C; auto; try contradiction; exfalso.
      * destruct C as (h' & aad & d1 & D & X). destruct V as (V & _ & aad' & d & D'). rewrite D in D'. inversion D'; subst. auto.
      * destruct C as (h' & slots' & old & new & ha & -> & V' & KN & _).
        destruct (v5_header_unique _ _ _ _ _ V V') as (-> & ->). auto.
      * destruct C as (h' & slots' & V' & C). destruct (v5_header_unique _ _ _ _ _ V V') as (-> & ->).
        destruct C as [(k & K1 & K2)|(KN & _)]; [|auto]. destruct (KA k K1) as (key & Hk). congruence.
      * destruct V as (_ & _ & aad & d & D). eapply C; eauto.
    + intros h slots old new ha -> V KA KH KN L4. destruct e; cbn in C; auto; try contradiction; exfalso.
      * destruct C as (h' & aad & d1 & D & X). destruct V as (V & _ & aad' & d & D'). rewrite D in D'. inversion D'; subst. auto.
      * destruct C as (h' & slots' & V' & C). destruct (v5_header_unique _ _ _ _ _ V V') as (-> & ->). auto.
      * destruct C as (h' & slots' & V' & C). destruct (v5_header_unique _ _ _ _ _ V V') as (-> & ->).
        destruct C as [(k & K1 & K2)|(_ & n & a & salt & N & K2)].
        { destruct (KA k K1) as (key & Hk). congruence. }
        inversion N; subst. destruct (KH salt) as (key & Hk). congruence.
      * destruct V as (_ & _ & aad & d & D). eapply C; eauto.
  - assert (OE : old_password op = op_old op) by (destruct op; reflexivity).
    split; [|split; [|split]].
    + intros X. exfalso. destruct P1 as (_ & _ & aad & d & D). eapply X; eauto.
    + intros h' aad' d1' D' X. exfalso. destruct P1 as (V & _ & aad & d & D). rewrite D in D'. inversion D'; subst. auto.
    + intros h' slots' V _ NK. exfalso. destruct (v5_header_unique _ _ _ _ _ V P1) as (-> & ->). apply NK.
      exists i, mk. split; [|exact P3]. rewrite OE. eapply found_first_open; eauto.
    + intros h' slots' old new ha -> V _ _ _ L4. exfalso. destruct (v5_header_unique _ _ _ _ _ V P1) as (-> & ->).
      specialize (P4 _ _ _ eq_refl). lia.
Qed.
