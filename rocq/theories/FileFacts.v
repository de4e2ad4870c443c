(** Facts about encrypt::execute and decrypt::execute. *)
From Coq Require Import List Arith NArith ZArith Lia Bool.
From Verif Require Import Bytes Outcome IO Primitives Crypto Header Stream KeyModel EncDec.
From Verif Require Import BytesFacts IOFacts HeaderSpec HeaderFacts HeaderProofs.
From Verif Require Import StreamSpec StreamFacts StreamProofs FileSpec.
Local Open Scope nat_scope.

(** ** Small pieces *)

Lemma draw_length : forall r off n, length (draw r off n) = n.
Proof. intros. unfold draw. now rewrite map_length, seq_length. Qed.

Lemma draw_shift : forall r k off n, draw (fun i => r (k + i)) off n = draw r (k + off) n.
Proof.
  intros r k off n. unfold draw. revert off; induction n; intros off; cbn; [reflexivity|].
  f_equal. rewrite IHn. f_equal. f_equal. lia.
Qed.

Lemma hash_cases : forall E h pw s,
  (exists k, hash E h pw s = Ok k) \/ hash E h pw s = Err tt.
Proof.
  intros E [i|i] pw s; unfold hash, argon2id_hash, balloon_hash;
    repeat match goal with
           | |- context [if ?c then _ else _] => destruct c
           | |- context [match ?o with Some _ => _ | None => _ end] => destruct o
           end; eauto.
Qed.

Lemma hash_length : forall E h pw s k, env_ok E -> hash E h pw s = Ok k -> length k = 32.
Proof.
  intros E [i|i] pw s k HE; unfold hash, argon2id_hash, balloon_hash;
    repeat match goal with
           | |- context [if ?c then _ else _] => destruct c
           | |- context [match ?o with Some _ => _ | None => _ end] => destruct o eqn:?
           end; intros H; try discriminate; inversion H; subst;
    eauto using argon2id_length, balloon_length.
Qed.

Lemma hash_known : forall E h pw s k, hash E h pw s = Ok k -> known_hash h.
Proof.
  intros E [i|i] pw s k H; unfold hash in H; unfold known_hash; cbn [In].
  - destruct (Z.eqb_spec i 1) as [->|]; [tauto|].
    destruct (Z.eqb_spec i 2) as [->|]; [tauto|].
    destruct (Z.eqb_spec i 3) as [->|]; [tauto|discriminate].
  - destruct (Z.eqb_spec i 4) as [->|]; [tauto|].
    destruct (Z.eqb_spec i 5) as [->|]; [tauto|discriminate].
Qed.

Lemma vec_to_arr_id : forall n v, length v = n -> vec_to_arr n v = v.
Proof.
  intros n v <-. unfold vec_to_arr. rewrite Nat.min_id, Nat.sub_diag, firstn_all. cbn.
  apply app_nil_r.
Qed.

Definition adv (n : nat) (w : world) : world :=
  mkWorld (w_in w) (w_out w) (w_hdr w) (fun i => w_rng w (n + i)) (w_tr w).

Lemma fill_bytes_eq : forall {Er} n w,
  @fill_bytes Er n w = (Ok (draw (w_rng w) 0 n), adv n w).
Proof. reflexivity. Qed.

(** ** encrypt::execute *)

(** The values it draws, in order: salt, master key, master key nonce, nonce. *)
Definition e_salt (r : rng) : bytes := draw r 0 16.
Definition e_master (r : rng) : bytes := draw r 16 32.
Definition e_mk_nonce (a : algorithm) (r : rng) : bytes := draw r 48 (get_nonce_len a MemoryMode).
Definition e_nonce (t : header_type) (r : rng) : bytes :=
  draw r (48 + get_nonce_len (ht_algorithm t) MemoryMode)
         (get_nonce_len (ht_algorithm t) (ht_mode t)).

Definition e_header (req : enc_request) (r : rng) (wrapped : bytes) : header :=
  let t := er_header_type req in
  mkHeader t (e_nonce t r) None
    (Some [mkSlot (er_hashing_algorithm req) wrapped (e_mk_nonce (ht_algorithm t) r) (e_salt r)]).

Definition e_stream (t : header_type) (r : rng) : stream :=
  mkStream (ht_algorithm t) (e_master r) (e_nonce t r) 0.

(** The call that wraps the master key. *)
Definition e_wrap (a : algorithm) (key : bytes) (r : rng) (wrapped : bytes) : call :=
  mkCall a key (e_mk_nonce a r) [] (e_master r) wrapped.

(** The part of [encrypt_execute_bs] that touches the devices. *)
Definition enc_tail (E : env) (bs : nat) (detached : bool) (h : header) (s : stream)
  : M world enc_error unit :=
  map_err (fun _ => EncResetCursorPosition) (on_out dev_rewind) ;;
  (if detached then
     map_err (fun _ => EncResetCursorPosition) (on_hdr dev_rewind) ;;
     on_hdr (write_header_to h)
   else on_out (write_header_to h)) ;;
  aad <- map_err (fun _ => EncCreateAad) (lift (create_aad h)) ;;
  map_err (fun _ => EncResetCursorPosition) (on_in dev_rewind) ;;
  map_err (fun _ => EncEncryptFile) (encrypt_file_bs E bs s aad).

Definition same_devices (w w' : world) : Prop :=
  w_in w' = w_in w /\ w_out w' = w_out w /\ w_hdr w' = w_hdr w.

Lemma encrypt_execute_cases : forall E bs req w,
  env_ok E ->
  let t := er_header_type req in
  let a := ht_algorithm t in
  let r := w_rng w in
  match hash E (er_hashing_algorithm req) (er_raw_key req) (e_salt r) with
  | Ok key =>
      exists wrapped r',
        length key = 32
        /\ aead_enc E a key (e_mk_nonce a r) [] (e_master r) = Some wrapped
        /\ length wrapped = 48
        /\ let w1 := mkWorld (w_in w) (w_out w) (w_hdr w) r'
                       (w_tr w ++ [Sealed (e_wrap a key r wrapped)]) in
           encrypt_execute_bs E bs req w
           = match ht_mode t with
             | MemoryMode => (Err EncInitializeStreams, w1)
             | StreamMode => enc_tail E bs (er_detached req) (e_header req r wrapped)
                               (e_stream t r) w1
             end
  | _ => exists w', encrypt_execute_bs E bs req w = (Err EncHashKey, w')
           /\ same_devices w w' /\ w_tr w' = w_tr w
  end.
Proof.
  intros E bs req w HE t a r.
  unfold encrypt_execute_bs. fold t a.
  erewrite bind_ok by apply fill_bytes_eq.
  change (draw (w_rng w) 0 SALT_LEN) with (e_salt r).
  destruct (hash_cases E (er_hashing_algorithm req) (er_raw_key req) (e_salt r)) as [(key & Hk)|Hk];
    rewrite Hk.
  2:{ eexists. split.
      - erewrite bind_err; [reflexivity|]. reflexivity.
      - unfold same_devices; cbn. auto. }
  pose proof (hash_length _ _ _ _ _ HE Hk) as Hlen.
  erewrite bind_ok by (apply map_err_ok; reflexivity).
  erewrite bind_ok.
  2:{ apply map_err_ok. unfold lift, ciphers_initialize. rewrite Hlen. reflexivity. }
  erewrite bind_ok by apply fill_bytes_eq.
  erewrite bind_ok by apply fill_bytes_eq.
  cbn [w_in w_out w_hdr w_rng w_tr adv].
  assert (H1 : draw (fun i => w_rng w (SALT_LEN + i)) 0 MASTER_KEY_LEN = e_master r).
  { rewrite draw_shift. reflexivity. }
  assert (H2 : draw (fun i => w_rng w (SALT_LEN + (MASTER_KEY_LEN + i))) 0 (get_nonce_len a MemoryMode)
               = e_mk_nonce a r).
  { rewrite (draw_shift (fun j => w_rng w (SALT_LEN + j))), draw_shift. reflexivity. }
  rewrite H1, H2.
  destruct (aead_enc E a key (e_mk_nonce a r) [] (e_master r)) as [wrapped|] eqn:Hw.
  2:{ exfalso. eapply (aead_total _ HE); [..|exact Hw]; auto.
      - unfold e_mk_nonce. apply draw_length.
      - cbn; lia.
      - unfold e_master. rewrite draw_length. unfold BLOCK_SIZE. lia. }
  pose proof (aead_length _ HE _ _ _ _ _ _ Hw) as Hwl.
  unfold e_master in Hwl. rewrite draw_length in Hwl.
  assert (Hnl : length (e_mk_nonce a r) = get_nonce_len a MemoryMode) by apply draw_length.
  erewrite bind_ok.
  2:{ apply map_err_ok. apply zoom_eq. unfold ciphers_encrypt. cbn [ci_alg ci_key].
      rewrite Hnl, Nat.eqb_refl, Hw. reflexivity. }
  erewrite bind_ok by apply fill_bytes_eq.
  cbn [w_in w_out w_hdr w_rng w_tr adv].
  assert (H3 : draw (fun i => w_rng w (SALT_LEN + (MASTER_KEY_LEN + (get_nonce_len a MemoryMode + i)))) 0
                 (get_nonce_len a (ht_mode t)) = e_nonce t r).
  { rewrite (draw_shift (fun j => w_rng w (SALT_LEN + (MASTER_KEY_LEN + j)))),
      (draw_shift (fun j => w_rng w (SALT_LEN + j))), draw_shift.
    unfold e_nonce. fold a. unfold SALT_LEN, MASTER_KEY_LEN. f_equal. lia. }
  rewrite H3.
  rewrite (vec_to_arr_id _ wrapped) by (rewrite Hwl; reflexivity).
  destruct (ht_mode t) eqn:Hm;
    exists wrapped; eexists; (split; [exact Hlen|]); (split; [reflexivity|]);
    (split; [rewrite Hwl; reflexivity|]); cbv zeta.
  - erewrite bind_err; [reflexivity|]. unfold map_err, lift.
    assert (Hi : enc_stream_initialize (e_master r) (e_nonce t r) a = Err tt).
    { unfold enc_stream_initialize, e_nonce. rewrite draw_length, Hm. fold a.
      destruct a; reflexivity. }
    rewrite Hi. reflexivity.
  - erewrite bind_ok.
    2:{ apply map_err_ok. unfold lift.
        rewrite (enc_init_complete (e_master r) (e_nonce t r) a); [reflexivity| |].
        + apply draw_length.
        + unfold e_nonce. rewrite draw_length, Hm. reflexivity. }
    reflexivity.
Qed.

Lemma aad_length : forall h aad, wf_header h -> create_aad h = Ok aad ->
  16 <= length aad <= 100.
Proof.
  intros h aad [(Hv & Hn & Hk & s & Hs & Hl) | [(Hv & Hn & k & Hk & Hsz & Hh & Hs) |
            (Hv & Hn & l & Hk & Hle & Hf)]] H;
    unfold create_aad in H; rewrite Hv in H; unfold nonce_sized in Hn;
    destruct (nonce_len_bounds (ht_algorithm (h_type h)) (ht_mode (h_type h))) as (B1 & B2 & B3);
    destruct (nonce_len_bounds (ht_algorithm (h_type h)) MemoryMode) as (C1 & C2 & C3).
  - unfold serialize_v3 in H. rewrite Hs in H. apply Ok_inj in H. subst aad.
    rewrite !app_length, tag_bytes_length, nonce_padding_length, zeros_length. lia.
  - rewrite Hk in H. destruct Hsz as (S1 & S2 & S3).
    assert (E : length (match h_salt h with Some s => s | None => ks_salt k end) = 16)
      by (destruct Hs as [-> | ->]; exact S3).
    apply Ok_inj in H. subst aad.
    rewrite !app_length, tag_bytes_length, nonce_padding_length, zeros_length. unfold bytes in *. lia.
  - apply Ok_inj in H. subst aad.
    rewrite !app_length, tag_bytes_length, nonce_padding_length. lia.
Qed.

Lemma e_header_wf_v5 : forall req r wrapped,
  ht_version (er_header_type req) = V5 -> known_hash (er_hashing_algorithm req) ->
  length wrapped = 48 -> wf_header (e_header req r wrapped).
Proof.
  intros req r wrapped Hv Hk Hw. right. right. unfold wf_v5, e_header, nonce_sized.
  cbn [h_type h_nonce h_keyslots]. split; [exact Hv|]. split; [apply draw_length|].
  eexists. split; [reflexivity|]. split; [cbn; lia|].
  constructor; [|constructor]. unfold slot_wf, slot_sized. cbn [ks_enc ks_nonce ks_salt ks_hash].
  parts; auto; apply draw_length.
Qed.

Lemma e_header_wf_v4 : forall req r wrapped,
  ht_version (er_header_type req) = V4 -> er_hashing_algorithm req = Blake3Balloon 4 ->
  length wrapped = 48 -> wf_header (e_header req r wrapped).
Proof.
  intros req r wrapped Hv Hk Hw. right. left. unfold wf_v4, e_header, nonce_sized.
  cbn [h_type h_nonce h_keyslots h_salt]. split; [exact Hv|]. split; [apply draw_length|].
  eexists. split; [reflexivity|]. cbn [ks_hash ks_salt]. rewrite Hk.
  repeat split; cbn [ks_enc ks_nonce ks_salt]; auto; apply draw_length.
Qed.

(** The devices when the body starts being written, if all is well. *)
Definition body_world (detached : bool) (b : bytes) (w : world) : world :=
  mkWorld (set_pos 0 (w_in w))
    (if detached then set_pos 0 (w_out w) else put_at b (set_pos 0 (w_out w)))
    (if detached then put_at b (set_pos 0 (w_hdr w)) else w_hdr w)
    (w_rng w) (w_tr w).

Lemma enc_tail_run : forall E bs detached h s b aad w,
  serialize h = Ok b -> create_aad h = Ok aad ->
  d_plan (w_in w) = [] -> d_plan (w_out w) = [] -> (detached = true -> d_plan (w_hdr w) = []) ->
  enc_tail E bs detached h s w
  = map_err (fun _ => EncEncryptFile) (encrypt_file_bs E bs s aad) (body_world detached b w).
Proof.
  intros E bs detached h s b aad w Hs Ha Hi Ho Hh. unfold enc_tail.
  erewrite bind_ok by (apply map_err_ok, zoom_eq; apply dev_seek_start_ok; exact Ho).
  assert (Hd : (if detached
     then
      map_err (fun _ : io_error => EncResetCursorPosition) (on_hdr dev_rewind);;
      on_hdr (write_header_to h)
     else on_out (write_header_to h))
       (mkWorld (w_in w) (set_pos 0 (w_out w)) (w_hdr w) (w_rng w) (w_tr w))
     = (Ok tt, mkWorld (w_in w)
                 (if detached then set_pos 0 (w_out w) else put_at b (set_pos 0 (w_out w)))
                 (if detached then put_at b (set_pos 0 (w_hdr w)) else w_hdr w)
                 (w_rng w) (w_tr w))).
  { assert (Hw : forall d, d_plan d = [] -> write_header_to h d = (Ok tt, put_at b d)).
    { intros d Hd. unfold write_header_to.
      erewrite bind_ok by (unfold map_err, lift; rewrite Hs; reflexivity).
      erewrite bind_ok by (apply map_err_ok, dev_write_ok; exact Hd). reflexivity. }
    destruct detached.
    - erewrite bind_ok by (apply map_err_ok, zoom_eq; apply dev_seek_start_ok; cbn; auto).
      unfold on_hdr. erewrite zoom_eq by (apply Hw; cbn; auto). reflexivity.
    - unfold on_out. erewrite zoom_eq by (apply Hw; cbn; auto). reflexivity. }
  erewrite bind_ok by exact Hd.
  erewrite bind_ok by (unfold map_err, lift; rewrite Ha; reflexivity).
  erewrite bind_ok by (apply map_err_ok, zoom_eq; apply dev_seek_start_ok; exact Hi).
  reflexivity.
Qed.

(** Any device behaviour: what a successful encryption did. *)
Lemma enc_tail_inv : forall E bs detached h s w u w',
  enc_tail E bs detached h s w = (Ok u, w') ->
  exists b aad k w2,
    serialize h = Ok b /\ create_aad h = Ok aad /\ k <= length b
    /\ encrypt_file_bs E bs s aad w2 = (Ok tt, w')
    /\ w_tr w2 = w_tr w /\ w_rng w2 = w_rng w
    /\ d_data (w_in w2) = d_data (w_in w) /\ d_pos (w_in w2) = 0
    /\ (no_short (d_plan (w_in w)) -> no_short (d_plan (w_in w2)))
    /\ (d_plan (w_in w) = [] -> d_plan (w_in w2) = [])
    /\ (d_plan (w_out w) = [] -> d_plan (w_out w2) = [])
    /\ if detached
       then wrote (set_pos 0 (w_hdr w)) (w_hdr w2) (firstn k b)
            /\ wrote (set_pos 0 (w_out w)) (w_out w2) []
            /\ (no_short (d_plan (w_hdr w)) -> k = length b)
       else wrote (set_pos 0 (w_out w)) (w_out w2) (firstn k b)
            /\ w_hdr w2 = w_hdr w
            /\ (no_short (d_plan (w_out w)) -> k = length b).
Proof.
  intros E bs detached h s w u w' H. unfold enc_tail in H.
  apply bind_inv in H as [(u1 & w1 & H1 & H)|[(e & _ & Hx)|[(_ & Hx)|(_ & Hx)]]]; try discriminate.
  apply map_err_inv in H1 as [(x & H1 & _)|[(e' & _ & Hx)|[(_ & Hx)|(_ & Hx)]]]; try discriminate.
  apply zoom_inv in H1 as (d1 & H1 & ->).
  apply dev_seek_start_spec in H1 as (R1 & R2 & R3 & R4).
  apply bind_inv in H as [(u2 & w2 & H2 & H)|[(e & _ & Hx)|[(_ & Hx)|(_ & Hx)]]]; try discriminate.
  apply bind_inv in H as [(aad & w3 & H3 & H)|[(e & _ & Hx)|[(_ & Hx)|(_ & Hx)]]]; try discriminate.
  apply map_err_inv in H3 as [(x3 & H3 & Hx3)|[(e' & _ & Hx)|[(_ & Hx)|(_ & Hx)]]]; try discriminate.
  unfold lift in H3. assert (Ha : create_aad h = Ok aad) by congruence.
  assert (w3 = w2) by congruence. subst w3. clear H3 Hx3.
  apply bind_inv in H as [(u4 & w4 & H4 & H)|[(e & _ & Hx)|[(_ & Hx)|(_ & Hx)]]]; try discriminate.
  apply map_err_inv in H4 as [(x4 & H4 & _)|[(e' & _ & Hx)|[(_ & Hx)|(_ & Hx)]]]; try discriminate.
  apply zoom_inv in H4 as (d4 & H4 & ->).
  apply dev_seek_start_spec in H4 as (I1 & I2 & I3 & I4).
  apply map_err_inv in H as [(x5 & H & Hx5)|[(e' & _ & Hx)|[(_ & Hx)|(_ & Hx)]]]; try discriminate.
  destruct x5.
  assert (Hwh : forall d d', write_header_to h d = (Ok u2, d') ->
    exists b k, serialize h = Ok b /\ k <= length b /\ wrote d d' (firstn k b)
      /\ plan_step d d' /\ (no_short (d_plan d) -> k = length b)).
  { intros d d' Hd. unfold write_header_to in Hd.
    apply bind_inv in Hd as [(b & dd & D1 & Hd)|[(e & _ & Hx)|[(_ & Hx)|(_ & Hx)]]]; try discriminate.
    apply map_err_inv in D1 as [(y & D1 & Hy)|[(e' & _ & Hx)|[(_ & Hx)|(_ & Hx)]]]; try discriminate.
    unfold lift in D1. assert (serialize h = Ok b) by congruence. assert (dd = d) by congruence. subst dd.
    apply bind_inv in Hd as [(n & dd & D2 & Hd)|[(e & _ & Hx)|[(_ & Hx)|(_ & Hx)]]]; try discriminate.
    apply map_err_inv in D2 as [(z & D2 & Hz)|[(e' & _ & Hx)|[(_ & Hx)|(_ & Hx)]]]; try discriminate.
    inversion Hd; subst dd. pose proof (dev_write_no_short _ _ _ _ D2) as P4.
    apply dev_write_spec in D2 as (P1 & P2 & P3 & _).
    exists b, z. auto 10. }
  assert (Hset : forall d d' l, d_data d' = d_data d -> d_log d' = d_log d -> d_pos d' = 0 ->
            forall d2, wrote d' d2 l -> wrote (set_pos 0 d) d2 l).
  { intros d d' l X1 X2 X3 d2 (Y1 & Y2 & cs & Y3 & Y4 & Y5). unfold wrote, set_pos.
    cbn [d_data d_pos d_log]. rewrite <- X1, <- X2, <- X3. parts; auto. eauto. }
  destruct detached.
  - apply bind_inv in H2 as [(u5 & w5 & H5 & H2)|[(e & _ & Hx)|[(_ & Hx)|(_ & Hx)]]]; try discriminate.
    apply map_err_inv in H5 as [(x6 & H5 & _)|[(e' & _ & Hx)|[(_ & Hx)|(_ & Hx)]]]; try discriminate.
    apply zoom_inv in H5 as (d5 & H5 & ->).
    apply dev_seek_start_spec in H5 as (J1 & J2 & J3 & J4).
    apply zoom_inv in H2 as (d6 & H2 & ->). cbn [w_in w_out w_hdr w_rng w_tr] in *.
    apply Hwh in H2 as (b & k & K1 & K2 & K3 & K4 & K5).
    exists b, aad, k. eexists. split; [exact K1|]. split; [exact Ha|]. split; [exact K2|].
    split; [exact H|]. cbn [w_in w_out w_hdr w_rng w_tr]. parts; auto.
    + intros. eapply plan_step_no_short; eauto.
    + intros. eapply plan_step_nil; eauto.
    + intros. eapply plan_step_nil; eauto.
    + eapply Hset; [..|exact K3]; auto.
    + apply wrote_nil; auto.
    + intros. apply K5. eapply plan_step_no_short; eauto.
  - apply zoom_inv in H2 as (d6 & H2 & ->). cbn [w_in w_out w_hdr w_rng w_tr] in *.
    apply Hwh in H2 as (b & k & K1 & K2 & K3 & K4 & K5).
    exists b, aad, k. eexists. split; [exact K1|]. split; [exact Ha|]. split; [exact K2|].
    split; [exact H|]. cbn [w_in w_out w_hdr w_rng w_tr]. parts; auto.
    + intros. eapply plan_step_no_short; eauto.
    + intros. eapply plan_step_nil; eauto.
    + intros. eapply plan_step_nil; [exact K4|]. eapply plan_step_nil; eauto.
    + eapply Hset; [..|exact K3]; auto.
    + intros. apply K5. eapply plan_step_no_short; eauto.
Qed.

(** ** Master keys *)

Lemma try_keyslot_spec : forall E a pw k tr, env_ok E -> slot_sized a k ->
  (exists key mk, hash E (ks_hash k) pw (ks_salt k) = Ok key
     /\ aead_dec E a key (ks_nonce k) [] (ks_enc k) = Some mk /\ length mk = 32
     /\ try_keyslot E a pw k tr
        = (Ok mk, tr ++ [Opened (mkCall a key (ks_nonce k) [] mk (ks_enc k))]))
  \/ ((forall mk, ~ slot_opens E a pw k mk) /\ try_keyslot E a pw k tr = (Err tt, tr)).
Proof.
  intros E a pw k tr HE (S1 & S2 & S3). unfold try_keyslot.
  destruct (hash_cases E (ks_hash k) pw (ks_salt k)) as [(key & Hk)|Hk].
  - pose proof (hash_length _ _ _ _ _ HE Hk) as Hlen.
    erewrite bind_ok by (unfold lift; rewrite Hk; reflexivity).
    erewrite bind_ok by (unfold lift, ciphers_initialize; rewrite Hlen; reflexivity).
    destruct (aead_dec E a key (ks_nonce k) [] (ks_enc k)) as [mk|] eqn:Hd.
    + left. exists key, mk.
      pose proof (aead_dec_length _ HE _ _ _ _ _ _ Hd) as Hl. rewrite S1 in Hl.
      split; [exact Hk|]. split; [exact Hd|]. split; [lia|].
      erewrite bind_ok.
      2:{ unfold ciphers_decrypt. cbn [ci_alg ci_key]. rewrite S2, Nat.eqb_refl, Hd. reflexivity. }
      unfold ret. rewrite vec_to_arr_id by (unfold MASTER_KEY_LEN; lia). reflexivity.
    + right. split.
      * intros mk (key' & Hk' & Hd'). rewrite Hk in Hk'. apply Ok_inj in Hk'. congruence.
      * erewrite bind_err; [reflexivity|].
        unfold ciphers_decrypt. cbn [ci_alg ci_key]. rewrite S2, Nat.eqb_refl, Hd. reflexivity.
  - right. split.
    + intros mk (key' & Hk' & Hd'). congruence.
    + erewrite bind_err; [reflexivity|]. unfold lift. now rewrite Hk.
Qed.

Lemma find_keyslot_spec : forall E a pw l tr, env_ok E -> Forall (slot_sized a) l ->
  (exists l1 k l2 key mk, l = l1 ++ k :: l2
     /\ (forall k', In k' l1 -> forall m, ~ slot_opens E a pw k' m)
     /\ hash E (ks_hash k) pw (ks_salt k) = Ok key
     /\ aead_dec E a key (ks_nonce k) [] (ks_enc k) = Some mk /\ length mk = 32
     /\ find_keyslot E a pw l tr
        = (Ok mk, tr ++ [Opened (mkCall a key (ks_nonce k) [] mk (ks_enc k))]))
  \/ ((forall k, In k l -> forall mk, ~ slot_opens E a pw k mk)
      /\ find_keyslot E a pw l tr = (Err tt, tr)).
Proof.
  intros E a pw l tr HE. induction l as [|k l IH]; intros Hf.
  - right. split; [intros k []|reflexivity].
  - inversion Hf as [|x y Hk Hl]; subst.
    destruct (try_keyslot_spec E a pw k tr HE Hk)
      as [(key & mk & A1 & A2 & A3 & A4)|(B1 & B2)].
    + left. exists [], k, l, key, mk. split; [reflexivity|]. split; [intros k' []|].
      split; [exact A1|]. split; [exact A2|]. split; [exact A3|].
      cbn [find_keyslot]. unfold or_else. now rewrite A4.
    + destruct (IH Hl) as [(l1 & k' & l2 & key & mk & -> & C1 & C2 & C3 & C4 & C5)|(D1 & D2)].
      * left. exists (k :: l1), k', l2, key, mk. split; [reflexivity|]. split.
        { intros x [<-|Hx]; auto. }
        split; [exact C2|]. split; [exact C3|]. split; [exact C4|].
        cbn [find_keyslot]. unfold or_else. rewrite B2. exact C5.
      * right. split; [intros x [<-|Hx]; auto|].
        cbn [find_keyslot]. unfold or_else. rewrite B2. exact D2.
Qed.

(** What [decrypt_master_key] does on a header with the shape every parsed
    header has. *)
Definition header_shape (h : header) : Prop :=
  nonce_sized h /\
  match ht_version (h_type h) with
  | V1 | V2 | V3 => exists salt, h_salt h = Some salt
  | V4 => exists k, h_keyslots h = Some [k] /\ slot_sized (ht_algorithm (h_type h)) k
  | V5 => exists l, h_keyslots h = Some l /\ Forall (slot_sized (ht_algorithm (h_type h))) l
  end.

Lemma deserialize_shape : forall d h aad d',
  deserialize d = (Ok (h, aad), d') -> header_shape h.
Proof.
  intros d h aad d' H.
  destruct (accepted_inv _ _ _ _ H) as (A1 & A2 & A3 & A4 & A5).
  set (full := firstn _ _) in *.
  destruct (nonce_len_bounds (ht_algorithm (h_type h)) (ht_mode (h_type h))) as (B1 & B2 & B3).
  destruct (ht_version (h_type h)) eqn:Hv;
    try (destruct A5 as (A5 & _); [discriminate|discriminate|];
         destruct A5 as [(W1 & W2 & _ & s & W3 & _)|[(W1 & W2 & k & W3 & W4 & _)|(W1 & W2 & l & W3 & _ & W4)]];
         try (rewrite Hv in W1; discriminate W1); unfold header_shape; rewrite Hv;
         (split; [exact W2|]); eauto using Forall_slot_wf_sized; fail);
    unfold header_shape, nonce_sized; rewrite Hv;
    unfold parsed in A4; rewrite Hv in A4; cbn [get_size] in A1;
    apply Ok_inj, (f_equal fst) in A4; cbn [fst] in A4; rewrite <- A4;
    cbn [h_nonce h_type h_salt]; (split; [apply slice_length; lia|eauto]).
Qed.

Lemma decrypt_master_key_spec : forall E pw h tr, env_ok E -> header_shape h ->
  (exists mk new, unlocks E pw h mk /\ length mk = 32
     /\ decrypt_master_key E pw h tr = (Ok mk, tr ++ map Opened new)
     /\ match ht_version (h_type h) with
        | V4 | V5 =>
            exists l k key, h_keyslots h = Some l /\ In k l
              /\ hash E (ks_hash k) pw (ks_salt k) = Ok key
              /\ aead_dec E (ht_algorithm (h_type h)) key (ks_nonce k) [] (ks_enc k) = Some mk
              /\ new = [mkCall (ht_algorithm (h_type h)) key (ks_nonce k) [] mk (ks_enc k)]
        | _ => new = []
        end)
  \/ ((forall mk, ~ unlocks E pw h mk) /\ decrypt_master_key E pw h tr = (Err tt, tr)).
Proof.
  intros E pw h tr HE (Hn & Hs). unfold decrypt_master_key, unlocks.
  assert (Hold : forall v i, argon2id_hash E pw match h_salt h with Some s => s | None => [] end v
                             = hash E (Argon2id i) pw match h_salt h with Some s => s | None => [] end ->
    forall salt, h_salt h = Some salt ->
    (exists mk new, (exists salt0, Some salt = Some salt0 /\ hash E (Argon2id i) pw salt0 = Ok mk)
       /\ length mk = 32
       /\ lift (argon2id_hash E pw salt v) tr = (Ok mk, tr ++ map Opened new) /\ new = [])
    \/ ((forall mk, ~ exists salt0, Some salt = Some salt0 /\ hash E (Argon2id i) pw salt0 = Ok mk)
        /\ lift (argon2id_hash E pw salt v) tr = (Err tt, tr))).
  { intros v i He salt Hsalt. rewrite Hsalt in He. unfold lift. rewrite He.
    destruct (hash_cases E (Argon2id i) pw salt) as [(key & Hk)|Hk].
    - left. exists key, []. split; [eauto|]. split; [eapply hash_length; eauto|].
      rewrite Hk. cbn. now rewrite app_nil_r.
    - right. rewrite Hk. split; [|reflexivity]. intros mk (s0 & Hs0 & Hh). inversion Hs0; subst. congruence. }
  destruct (ht_version (h_type h)) eqn:Hv.
  - destruct Hs as (salt & Hs). rewrite Hs. apply (Hold V1 1%Z); auto.
  - destruct Hs as (salt & Hs). rewrite Hs. apply (Hold V2 2%Z); auto.
  - destruct Hs as (salt & Hs). rewrite Hs. apply (Hold V3 3%Z); auto.
  - destruct Hs as (k & Hk & Hsz). rewrite Hk.
    destruct (try_keyslot_spec E (ht_algorithm (h_type h)) pw k tr HE Hsz)
      as [(key & mk & A1 & A2 & A3 & A4)|(B1 & B2)].
    + left. exists mk, [mkCall (ht_algorithm (h_type h)) key (ks_nonce k) [] mk (ks_enc k)].
      split. { exists [], k, []. split; [reflexivity|]. split; [exists key; auto|intros k' []]. }
      split; [exact A3|]. split; [exact A4|].
      exists [k], k, key. split; [reflexivity|]. split; [now left|]. auto.
    + right. split; [|exact B2]. intros mk (l1 & k' & l2 & Hl & Ho & _).
      destruct l1 as [|x l1]; [|destruct l1; discriminate].
      inversion Hl; subst. eapply B1; eauto.
  - destruct Hs as (l & Hk & Hsz). rewrite Hk.
    destruct (find_keyslot_spec E (ht_algorithm (h_type h)) pw l tr HE Hsz)
      as [(l1 & k & l2 & key & mk & -> & C1 & C2 & C3 & C4 & C5)|(D1 & D2)].
    + left. exists mk, [mkCall (ht_algorithm (h_type h)) key (ks_nonce k) [] mk (ks_enc k)].
      split. { exists l1, k, l2. split; [reflexivity|]. split; [exists key; auto|exact C1]. }
      split; [exact C4|]. split; [exact C5|].
      exists (l1 ++ k :: l2), k, key. split; [reflexivity|].
      split; [apply in_or_app; right; now left|]. auto.
    + right. split; [|exact D2]. intros mk (l1 & k' & l2 & Hl & Ho & _).
      assert (l = l1 ++ k' :: l2) by congruence. subst l.
      eapply D1; [|exact Ho]. apply in_or_app. right. now left.
Qed.

Lemma unlocks_length : forall E pw h mk, env_ok E -> header_shape h ->
  unlocks E pw h mk -> length mk = 32.
Proof.
  intros E pw h mk HE (Hn & Hs) Hu. unfold unlocks in Hu.
  destruct (ht_version (h_type h)).
  1-3: destruct Hu as (salt & _ & Hh); eapply hash_length; eauto.
  - destruct Hs as (k & Hk & Hsz). destruct Hu as (l1 & k' & l2 & Hl & (key & _ & Hd) & _).
    rewrite Hk in Hl. destruct l1 as [|x l1]; [|destruct l1; discriminate].
    inversion Hl; subst. apply (aead_dec_length _ HE) in Hd. destruct Hsz as (S1 & _). lia.
  - destruct Hs as (l & Hk & Hsz). destruct Hu as (l1 & k' & l2 & Hl & (key & _ & Hd) & _).
    rewrite Hk in Hl. inversion Hl; subst. apply Forall_app in Hsz as (_ & Hsz).
    inversion Hsz; subst. apply (aead_dec_length _ HE) in Hd. destruct H1 as (S1 & _). lia.
Qed.

Lemma unlocks_unique : forall E pw h mk mk', 
  unlocks E pw h mk -> unlocks E pw h mk' -> mk = mk'.
Proof.
  intros E pw h mk mk' Hu Hu'. unfold unlocks in *.
  destruct (ht_version (h_type h)).
  1-3: destruct Hu as (s & Hs & Hh), Hu' as (s' & Hs' & Hh'); rewrite Hs in Hs'; inversion Hs'; subst;
       rewrite Hh in Hh'; now apply Ok_inj in Hh'.
  all: destruct Hu as (l1 & k & l2 & Hl & Ho & Hn), Hu' as (l1' & k' & l2' & Hl' & Ho' & Hn');
    rewrite Hl in Hl'; inversion Hl' as [Heq]; clear Hl Hl';
    assert (Hkk : k = k');
    [ revert l1' Hn' Heq; induction l1 as [|x l1 IH]; intros [|y l1'] Hn' Heq; inversion Heq; subst; auto;
      [ exfalso; eapply Hn'; [now left|exact Ho] | exfalso; eapply Hn; [now left|exact Ho'] |
        apply (IH (fun k0 H0 => Hn k0 (or_intror H0)) l1' (fun k0 H0 => Hn' k0 (or_intror H0)));
        assumption ]
    | subst k'; destruct Ho as (key & K1 & K2), Ho' as (key' & K1' & K2');
      rewrite K1 in K1'; apply Ok_inj in K1'; subst; congruence ].
Qed.
