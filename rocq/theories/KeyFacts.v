(** Facts about the key operations. *)
From Coq Require Import List Arith NArith ZArith Lia Bool.
From Verif Require Import Bytes Outcome IO Primitives Crypto Header Stream KeyModel EncDec KeyOps.
From Verif Require Import BytesFacts IOSpec IOFacts HeaderSpec HeaderFacts HeaderProofs.
From Verif Require Import StreamSpec StreamFacts StreamProofs FileSpec FileFacts FileProofs KeySpec.
Local Open Scope nat_scope.

(** ** Plans are consumed from the front *)

Definition plan_suffix (d d' : dev) : Prop := exists l, d_plan d = l ++ d_plan d'.

Lemma plan_suffix_refl : forall d, plan_suffix d d.
Proof. intros d. now exists []. Qed.

Lemma plan_suffix_trans : forall a b c, plan_suffix a b -> plan_suffix b c -> plan_suffix a c.
Proof. intros a b c (l & H) (m & G). exists (l ++ m). now rewrite H, G, app_assoc. Qed.

Lemma plan_step_suffix : forall d d', plan_step d d' -> plan_suffix d d'.
Proof.
  intros d d' [(A & B)|(e & A)].
  - exists []. now rewrite A, B.
  - exists [e]. exact A.
Qed.

Lemma plan_suffix_no_short : forall d d', plan_suffix d d' ->
  no_short (d_plan d) -> no_short (d_plan d').
Proof. intros d d' (l & H) G k Hk. apply (G k). rewrite H. apply in_or_app. now right. Qed.

Lemma plan_suffix_nil : forall d d', plan_suffix d d' -> d_plan d = [] -> d_plan d' = [].
Proof. intros d d' (l & H) G. rewrite G in H. symmetry in H. now apply app_eq_nil in H. Qed.

Lemma read_exact_loop_suffix : forall fuel n acc d o d',
  read_exact_loop fuel n acc d = (o, d') -> plan_suffix d d'.
Proof.
  induction fuel as [|fuel IH]; intros n acc d o d' H; destruct n as [|n]; cbn [read_exact_loop] in H.
  - inversion H; subst. apply plan_suffix_refl.
  - inversion H; subst. apply plan_suffix_refl.
  - inversion H; subst. apply plan_suffix_refl.
  - destruct (dev_read (S n) d) as [o1 d1] eqn:R.
    apply dev_read_spec in R as (R & _). apply plan_step_suffix in R.
    destruct o1 as [[|x got]|[]| |]; try (inversion H; subst; exact R);
      apply IH in H; eapply plan_suffix_trans; eauto.
Qed.

Lemma deserialize_suffix : forall d o d', deserialize d = (o, d') -> plan_suffix d d'.
Proof.
  intros d o d' H. unfold deserialize in H.
  assert (RE : forall (n : hdr_error) d o d', map_err (fun _ => n) (dev_read_exact o) d = d' -> plan_suffix d (snd d')).
  { intros n d0 o0 d0' <-. unfold map_err, dev_read_exact.
    destruct (read_exact_loop _ o0 [] d0) as [x y] eqn:R. apply read_exact_loop_suffix in R.
    destruct x; exact R. }
  apply bind_inv in H as [(vb & d1 & H1 & H)|[(e & H1 & _)|[(H1 & _)|(H1 & _)]]];
    apply RE in H1; cbn [snd] in H1; try exact H1.
  apply bind_inv in H as [(u & d2 & H2 & H)|[(e & H2 & _)|[(H2 & _)|(H2 & _)]]];
    apply map_err_inv in H2 as [(x & H2 & X)|[(x & H2 & X)|[(H2 & X)|(H2 & X)]]]; try discriminate X;
    apply dev_seek_back_spec in H2 as (H2 & _); apply plan_step_suffix in H2;
    pose proof (plan_suffix_trans _ _ _ H1 H2) as H12; try exact H12.
  apply bind_inv in H as [(v & d3 & H3 & H)|[(e & H3 & _)|[(H3 & _)|(H3 & _)]]];
    unfold lift_opt in H3; destruct (parse_version vb); try discriminate H3;
    inversion H3; subst; try exact H12.
  apply bind_inv in H as [(full & d4 & H4 & H)|[(e4 & H4 & _)|[(H4 & _)|(H4 & _)]]];
    apply RE in H4; cbn [snd] in H4; pose proof (plan_suffix_trans _ _ _ H12 H4) as H14; try exact H14.
  unfold lift in H. inversion H; subst. exact H14.
Qed.

(** ** Searching the keyslots *)

(** Slot [k] does not open, although the KDF works. *)
Definition shut (E : env) (a : algorithm) (pw : bytes) (k : keyslot) : Prop :=
  exists key, hash E (ks_hash k) pw (ks_salt k) = Ok key
    /\ aead_dec E a key (ks_nonce k) [] (ks_enc k) = None.

Lemma shut_not_open : forall E a pw k m, shut E a pw k -> ~ slot_opens E a pw k m.
Proof. intros E a pw k m (key & A & B) (key' & A' & B'). rewrite A in A'. apply Ok_inj in A'. congruence. Qed.

Lemma search_spec : forall E a pw l i tr, env_ok E -> Forall (slot_sized a) l ->
  (exists j k key mk,
     nth_error l j = Some k
     /\ (forall j' k', j' < j -> nth_error l j' = Some k' -> shut E a pw k')
     /\ hash E (ks_hash k) pw (ks_salt k) = Ok key
     /\ aead_dec E a key (ks_nonce k) [] (ks_enc k) = Some mk /\ length mk = 32
     /\ search_keyslots E a pw i l tr
        = (Ok (mk, i + j), tr ++ [Opened (mkCall a key (ks_nonce k) [] mk (ks_enc k))]))
  \/ (exists j k, nth_error l j = Some k /\ hash E (ks_hash k) pw (ks_salt k) = Err tt
      /\ (forall j' k', j' < j -> nth_error l j' = Some k' -> shut E a pw k')
      /\ search_keyslots E a pw i l tr = (Err KKeyHash, tr))
  \/ ((forall k, In k l -> shut E a pw k)
      /\ search_keyslots E a pw i l tr = (Ok (zeros MASTER_KEY_LEN, 0), tr)).
Proof.
  intros E a pw l. induction l as [|k l IH]; intros i tr HE Hf.
  { right. right. split; [intros k []|reflexivity]. }
  inversion Hf as [|x y (S1 & S2 & S3) Hl]; subst.
  cbn [search_keyslots].
  destruct (hash_cases E (ks_hash k) pw (ks_salt k)) as [(key & Hk)|Hk].
  2:{ right. left. exists 0, k. split; [reflexivity|]. split; [exact Hk|]. split; [intros; lia|].
      erewrite bind_err; [reflexivity|]. unfold map_err, lift. now rewrite Hk. }
  pose proof (hash_length _ _ _ _ _ HE Hk) as Hlen.
  erewrite bind_ok by (unfold map_err, lift; rewrite Hk; reflexivity).
  erewrite bind_ok by (unfold map_err, lift, ciphers_initialize; rewrite Hlen; reflexivity).
  unfold ciphers_decrypt. cbn [ci_alg ci_key]. rewrite S2, Nat.eqb_refl.
  destruct (aead_dec E a key (ks_nonce k) [] (ks_enc k)) as [mk|] eqn:Hd.
  - left. exists 0, k, key, mk.
    pose proof (aead_dec_length _ HE _ _ _ _ _ _ Hd) as Hlm.
    split; [reflexivity|]. split; [intros; lia|]. split; [exact Hk|]. split; [exact Hd|].
    split; [lia|]. rewrite vec_to_arr_id by (unfold MASTER_KEY_LEN; lia). now rewrite Nat.add_0_r.
  - assert (Hs : shut E a pw k) by (exists key; auto).
    destruct (IH (S i) tr HE Hl)
      as [(j & k' & key' & mk & A1 & A2 & A3 & A4 & A5 & A6)|[(j & k' & A1 & A2 & A3 & A4)|(A1 & A2)]].
    + left. exists (S j), k', key', mk. split; [exact A1|]. split.
      { intros [|j'] k2 Hj Hn; [inversion Hn; subst; exact Hs|]. apply (A2 j' k2); [lia|exact Hn]. }
      split; [exact A3|]. split; [exact A4|]. split; [exact A5|]. rewrite A6. do 2 f_equal. f_equal. lia.
    + right. left. exists (S j), k'. split; [exact A1|]. split; [exact A2|]. split; [|exact A4].
      intros [|j'] k2 Hj Hn; [inversion Hn; subst; exact Hs|]. apply (A3 j' k2); [lia|exact Hn].
    + right. right. split; [|exact A2]. intros k2 [<-|Hk2]; auto.
Qed.

(** Slot [i] opens first, and the KDF worked on the way. *)
Definition found (E : env) (a : algorithm) (pw : bytes) (slots : list keyslot)
  (i : nat) (key mk : bytes) (k : keyslot) : Prop :=
  nth_error slots i = Some k
  /\ hash E (ks_hash k) pw (ks_salt k) = Ok key
  /\ aead_dec E a key (ks_nonce k) [] (ks_enc k) = Some mk
  /\ (forall j k', j < i -> nth_error slots j = Some k' -> shut E a pw k').

Lemma found_first_open : forall E a pw slots i key mk k,
  found E a pw slots i key mk k -> first_open E a pw slots i mk.
Proof.
  intros E a pw slots i key mk k (A & B & C & D). exists k. split; [exact A|]. split; [exists key; auto|].
  intros j k' Hj Hn m. apply shut_not_open. eauto.
Qed.

Lemma first_open_found : forall E a pw slots i mk,
  first_open E a pw slots i mk -> kdf_accepts E pw slots ->
  exists key k, found E a pw slots i key mk k.
Proof.
  intros E a pw slots i mk (k & A & (key & B & C) & D) Hk. exists key, k. unfold found.
  split; [exact A|]. split; [exact B|]. split; [exact C|].
  intros j k' Hj Hn. destruct (Hk k') as (key' & Hk'); [eapply nth_error_In; eauto|].
  exists key'. split; [exact Hk'|].
  destruct (aead_dec E a key' (ks_nonce k') [] (ks_enc k')) eqn:G; [|reflexivity].
  exfalso. eapply D; eauto. exists key'. eauto.
Qed.

Lemma found_unique : forall E a pw slots i key mk k i' key' mk' k',
  found E a pw slots i key mk k -> found E a pw slots i' key' mk' k' ->
  i = i' /\ key = key' /\ mk = mk' /\ k = k'.
Proof.
  intros E a pw slots i key mk k i' key' mk' k' (A & B & C & D) (A' & B' & C' & D').
  assert (i = i').
  { destruct (lt_eq_lt_dec i i') as [[H|H]|H]; [|exact H|]; exfalso.
    - apply (shut_not_open E a pw k mk); [eapply D'; eauto|]. exists key. auto.
    - apply (shut_not_open E a pw k' mk'); [eapply D; eauto|]. exists key'. auto. }
  subst i'. assert (k = k') by congruence. subst k'.
  assert (key = key') by (rewrite B in B'; now apply Ok_inj in B'). subst key'.
  split; [reflexivity|]. split; [reflexivity|]. split; [|reflexivity]. congruence.
Qed.

Lemma dmk_spec : forall E a pw l tr o tr', env_ok E -> Forall (slot_sized a) l ->
  decrypt_v5_master_key_with_index E l pw a tr = (o, tr') ->
  (exists i k key mk, found E a pw l i key mk k /\ length mk = 32 /\ mk <> zeros 32
     /\ o = Ok (mk, i) /\ tr' = tr ++ [Opened (mkCall a key (ks_nonce k) [] mk (ks_enc k))])
  \/ ((o = Err KKeyHash \/ o = Err KIncorrectKey) /\ sealed tr' = sealed tr
      /\ forall i k key mk, found E a pw l i key mk k -> mk = zeros 32).
Proof.
  intros E a pw l tr o tr' HE Hf H. unfold decrypt_v5_master_key_with_index in H.
  destruct (search_spec E a pw l 0 tr HE Hf)
    as [(j & k' & key' & mk & A1 & A2 & A3 & A4 & A5 & A6)|[(j & k' & A1 & A2 & A3 & A4)|(A1 & A2)]].
  - erewrite bind_ok in H by exact A6. cbn [fst] in H.
    assert (Hfd : found E a pw l j key' mk k') by (repeat split; auto).
    destruct (bytes_eqb mk (zeros MASTER_KEY_LEN)) eqn:Hz; inversion H; subst.
    + apply bytes_eqb_eq in Hz. right. split; [now right|]. split.
      { unfold sealed. rewrite flat_map_app. cbn. now rewrite app_nil_r. }
      intros i k key mk' Hf'. destruct (found_unique _ _ _ _ _ _ _ _ _ _ _ _ Hfd Hf') as (_ & _ & <- & _).
      exact Hz.
    + apply bytes_eqb_neq in Hz. left. exists j, k', key', mk. auto.
  - erewrite bind_err in H by exact A4. inversion H; subst. right. split; [now left|]. split; [reflexivity|].
    intros i k key mk (B1 & B2 & B3 & B4). exfalso.
    destruct (lt_eq_lt_dec i j) as [[Hc|Hc]|Hc].
    + apply (shut_not_open E a pw k mk); [eapply A3; eauto|]. exists key. auto.
    + subst. congruence.
    + destruct (B4 _ _ Hc A1) as (x & Hx & _). congruence.
  - erewrite bind_ok in H by exact A2. cbn [fst] in H. rewrite bytes_eqb_refl in H. inversion H; subst.
    right. split; [now right|]. split; [reflexivity|].
    intros i k key mk (B1 & B2 & B3 & B4). exfalso.
    apply (shut_not_open E a pw k mk); [eapply A1, nth_error_In; eauto|]. exists key. auto.
Qed.

Lemma dmk_ok : forall E a pw l tr i k key mk, env_ok E -> Forall (slot_sized a) l ->
  found E a pw l i key mk k -> mk <> zeros 32 ->
  decrypt_v5_master_key_with_index E l pw a tr
  = (Ok (mk, i), tr ++ [Opened (mkCall a key (ks_nonce k) [] mk (ks_enc k))]).
Proof.
  intros E a pw l tr i k key mk HE Hf Hfd Hz.
  destruct (decrypt_v5_master_key_with_index E l pw a tr) as [o tr'] eqn:H.
  apply dmk_spec in H as [(i' & k' & key' & mk' & F & _ & _ & -> & ->)|(_ & _ & H)]; auto.
  - destruct (found_unique _ _ _ _ _ _ _ _ _ _ _ _ Hfd F) as (-> & -> & -> & ->). reflexivity.
  - exfalso. eauto.
Qed.

(** ** Opening the header *)

Lemma v5_deserialize_wf : forall d h aad d' , deserialize d = (Ok (h, aad), d') ->
  ht_version (h_type h) = V5 -> wf_v5 h /\ reread h = h.
Proof.
  intros d h aad d' H Hv. apply accepted_inv in H as (_ & _ & _ & _ & H).
  destruct H as (W & R); [rewrite Hv; discriminate|rewrite Hv; discriminate|].
  split; [|exact R].
  destruct W as [(W & _)|[(W & _)|W]]; [rewrite Hv in W; discriminate W|rewrite Hv in W; discriminate W|exact W].
Qed.

Lemma open_header_spec : forall w o w1, open_header w = (o, w1) ->
  w_out w1 = w_out w /\ w_hdr w1 = w_hdr w /\ w_rng w1 = w_rng w /\ w_tr w1 = w_tr w
  /\ d_data (w_in w1) = d_data (w_in w) /\ d_log (w_in w1) = d_log (w_in w)
  /\ plan_suffix (w_in w) (w_in w1)
  /\ match o with
     | Ok (h, slots) =>
         ht_version (h_type h) = V5 /\ h_keyslots h = Some slots
         /\ (exists aad d', deserialize (w_in w) = (Ok (h, aad), d'))
         /\ d_pos (w_in w1) = d_pos (w_in w)
     | Err e => In e [KHeaderDeserialize; KUnsupported; KSeek]
         /\ (d_plan (w_in w) = [] -> forall h slots, ~ v5_header (w_in w) h slots)
     | _ => False
     end.
Proof.
  intros w o w1 H. unfold open_header in H.
  destruct (deserialize (w_in w)) as [od d1] eqn:Hd.
  pose proof (deserialize_suffix _ _ _ Hd) as Hp.
  pose proof (deserialize_spec _ _ _ Hd) as (S1 & S2 & S3 & S4).
  destruct od as [[h aad]|e| |]; try contradiction.
  2:{ erewrite bind_err in H by (apply map_err_err, zoom_eq; exact Hd).
      inversion H; subst. cbn [w_in w_out w_hdr w_rng w_tr]. parts; auto.
      - now left.
      - intros _ h slots (_ & _ & aad & d' & Hx). congruence. }
  erewrite bind_ok in H by (apply map_err_ok, zoom_eq; exact Hd). cbn [fst] in H.
  destruct (below_v5 (ht_version (h_type h))) eqn:Hb.
  { inversion H; subst. cbn [w_in w_out w_hdr w_rng w_tr]. parts; auto.
    - right. now left.
    - intros _ h' slots (Hv & _ & aad' & d' & Hx). rewrite Hx in Hd. inversion Hd; subst.
      rewrite Hv in Hb. discriminate. }
  assert (Hv : ht_version (h_type h) = V5) by (destruct (ht_version (h_type h)); auto; discriminate).
  destruct (v5_deserialize_wf _ _ _ _ Hd Hv) as ((_ & _ & l & Hl & _) & _).
  set (w2 := mkWorld d1 (w_out w) (w_hdr w) (w_rng w) (w_tr w)) in *.
  apply bind_inv in H as [(u & w3 & H3 & H)|H3].
  - apply map_err_inv in H3 as [(x & H3 & _)|[(x & H3 & X)|[(H3 & X)|(H3 & X)]]]; try discriminate X.
    apply zoom_inv in H3 as (d3 & H3 & ->).
    apply dev_seek_back_spec in H3 as (P & A1 & A2 & A3 & A4). cbn [w_in w2] in *.
    rewrite Hl in H. inversion H; subst. cbn [w_in w_out w_hdr w_rng w_tr].
    parts; auto; try congruence.
    + eapply plan_suffix_trans; [exact Hp|]. now apply plan_step_suffix.
    + eauto.
    + destruct S4 as (_ & _ & _ & S4). lia.
  - assert (Hx : exists e, map_err (fun _ : io_error => KSeek)
       (on_in (dev_seek_back (get_size (ht_version (h_type h))))) w2 = (Err e, w1) /\ o = Err e).
    { destruct H3 as [(e & H3 & ->)|[(H3 & ->)|(H3 & ->)]]; [eauto| |];
        apply map_err_inv in H3 as [(x & H3 & X)|[(x & H3 & X)|[(H3 & X)|(H3 & X)]]]; try discriminate X;
        apply zoom_inv in H3 as (d3 & H3 & ->); apply dev_seek_back_spec in H3; tauto. }
    destruct Hx as (e & Hx & ->).
    apply map_err_inv in Hx as [(x & Hx & X)|[(x & Hx & X)|[(Hx & X)|(Hx & X)]]]; try discriminate X.
    injection X as ->.
    apply zoom_inv in Hx as (d3 & Hx & ->).
    apply dev_seek_back_spec in Hx as (P & A1 & A2 & A3 & A4). cbn [w_in w2] in *.
    cbn [w_in w_out w_hdr w_rng w_tr]. parts; auto; try congruence.
    + eapply plan_suffix_trans; [exact Hp|]. now apply plan_step_suffix.
    + right. right. now left.
    + intros Hn. exfalso. destruct S4 as (_ & _ & _ & S4). destruct A4 as [A4|A4]; [auto|lia].
Qed.
