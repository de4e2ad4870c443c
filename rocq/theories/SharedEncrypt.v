(** Encrypting with one file open more than once. *)
From Coq Require Import List Arith NArith ZArith Lia Bool.
From Verif Require Import Bytes Outcome IO Primitives Crypto Header Stream KeyModel EncDec.
From Verif Require Import FS Archive Shared SharedSpec HeaderSpec BytesFacts IOSpec IOFacts HeaderFacts FileFacts.
From Verif Require Import StreamSpec StreamFacts WorldFrames DecSim SharedSim SharedProofs SharedDecrypt.
Import ListNotations.
Local Open Scope nat_scope.

(** ** The keys *)

(** Only random numbers are drawn and AEAD calls made. *)
Definition drawn (x x' : shared) : Prop :=
  exists g t, x' = mkShared (sh_in x) (sh_out x) (sh_hdr x) (with_rng g (sh_sys x)) t.
Lemma drawn_refl : forall x, drawn x x.
Proof. intros [a b c [] t]. exists s_rng, t. reflexivity. Qed.
Lemma drawn_trans : forall x y z, drawn x y -> drawn y z -> drawn x z.
Proof. intros x y z (g & t & ->) (g' & t' & ->). exists g', t'. reflexivity. Qed.
Lemma drawn_rng : forall {E A} (m : M rng E A), always drawn (p_rng shared_ports m).
Proof.
  intros E A m x o x' H. cbn [p_rng shared_ports] in H. unfold zoom in H. destruct (m _) as [o1 g].
  inversion H; subst. exists g, (sh_tr x). reflexivity.
Qed.
Lemma drawn_tr : forall {E A} (m : M trace E A), always drawn (p_tr shared_ports m).
Proof.
  intros E A m x o x' H. cbn [p_tr shared_ports] in H. unfold zoom in H. destruct (m _) as [o1 t].
  inversion H; subst. exists (s_rng (sh_sys x)), t. destruct (sh_sys x). reflexivity.
Qed.
Lemma drawn_keys : forall E req, always drawn (encrypt_keys_p shared_ports E req).
Proof.
  intros E req. unfold encrypt_keys_p. cbv zeta.
  repeat (apply (always_bind _ drawn_trans);
          [first [apply drawn_rng|apply always_map_err, (always_lift _ drawn_refl)|apply always_map_err, drawn_tr]|intros ?]).
  apply (always_ret _ drawn_refl).
Qed.

Lemma draw_run : forall {E} n x, exists b x', @p_rng _ shared_ports E _ (draw n) x = (Ok b, x') /\ length b = n.
Proof.
  intros E n x. cbn [p_rng shared_ports]. unfold zoom, draw. eexists. eexists. split; [reflexivity|].
  rewrite map_length, seq_length. reflexivity.
Qed.
Lemma arr_length : forall n v, length (vec_to_arr n v) = n.
Proof.
  intros n v. unfold vec_to_arr. rewrite app_length, firstn_length, zeros_length. lia.
Qed.

Definition keyed (r : outcome enc_error (stream * header) * shared) : Prop :=
  match fst r with
  | Ok (st, h) => (exists b, serialize h = Ok b /\ length b = 416) /\ (exists aad, create_aad h = Ok aad)
  | Err _ => True
  | _ => False
  end.

Lemma keys_spec : forall E req x, v5_request req -> keyed (encrypt_keys_p shared_ports E req x).
Proof.
  intros E req x HV. unfold encrypt_keys_p. cbv zeta.
  destruct (@draw_run enc_error SALT_LEN x) as (salt & x1 & R1 & L1). erewrite bind_ok by exact R1. clear R1.
  destruct (hash_cases E (er_hashing_algorithm req) (er_raw_key req) salt) as [(key & HK)|HK]; rewrite HK.
  2:{ erewrite bind_err by reflexivity. exact I. }
  erewrite bind_ok by reflexivity.
  unfold ciphers_initialize. destruct (length key =? 32).
  2:{ erewrite bind_err by reflexivity. exact I. }
  erewrite bind_ok by reflexivity.
  destruct (@draw_run enc_error MASTER_KEY_LEN x1) as (mk & x2 & R2 & L2). erewrite bind_ok by exact R2. clear R2.
  destruct (@draw_run enc_error (get_nonce_len (ht_algorithm (er_header_type req)) MemoryMode) x2)
    as (mn & x3 & R3 & L3). erewrite bind_ok by exact R3. clear R3.
  match goal with |- keyed (bind ?m _ _) => set (k := m) end.
  assert (K : (exists ct x4, k x3 = (Ok ct, x4)) \/ (exists e x4, k x3 = (Err e, x4))).
  { unfold k, map_err. cbn [p_tr shared_ports]. unfold zoom, ciphers_encrypt. cbn [ci_alg ci_key].
    rewrite L3, Nat.eqb_refl. destruct (aead_enc _ _ _ _ _ _); eauto. }
  destruct K as [(ct & x4 & K)|(e & x4 & K)]; [erewrite bind_ok by exact K|erewrite bind_err by exact K; exact I].
  clear K k.
  destruct (@draw_run enc_error (get_nonce_len (ht_algorithm (er_header_type req)) (ht_mode (er_header_type req))) x4)
    as (nonce & x5 & R5 & L5). erewrite bind_ok by exact R5. clear R5.
  unfold enc_stream_initialize.
  destruct (negb _); [erewrite bind_err by reflexivity; exact I|].
  destruct (length mk =? 32); [|erewrite bind_err by reflexivity; exact I].
  erewrite bind_ok by reflexivity. unfold ret, keyed. cbn [fst].
  unfold v5_request in HV. unfold serialize, create_aad. cbn [h_type]. rewrite HV.
  split; [|eauto]. unfold serialize_v5. cbn [h_keyslots h_type h_nonce length Nat.leb].
  eexists. split; [reflexivity|]. cbn [map concat repeat Nat.sub].
  destruct (nonce_len_bounds (ht_algorithm (er_header_type req)) (ht_mode (er_header_type req))) as (B1 & B2 & B3).
  destruct (nonce_len_bounds (ht_algorithm (er_header_type req)) MemoryMode) as (C1 & C2 & C3).
  unfold slot_bytes. cbn [ks_enc ks_nonce ks_salt].
  rewrite !app_length, keyslot_serialize_id, slot_id_length, arr_length, L1, L3, L5, !zeros_length.
  unfold tag_bytes, nonce_padding. rewrite ?app_length, ?zeros_length.
  destruct (er_header_type req) as [v al md]. cbn [ht_version ht_algorithm ht_mode] in *.
  subst v. destruct al, md; cbn in *; lia.
Qed.

(** ** No panic, no endless run *)

Definition goes {S E A} (m : M S E A) (x : S) : Prop := fst (m x) <> Panic /\ fst (m x) <> Diverge.

Lemma goes_out : forall {E A} (m : M dev E A) x, (forall d, goes m d) -> goes (at_out m) x.
Proof.
  intros E A m x H. unfold goes, at_out. specialize (H (handle_dev (sh_sys x) (sh_out x))). unfold goes in H.
  destruct (m _). exact H.
Qed.
Lemma goes_hdr : forall {E A} (m : M dev E A) x, (forall d, goes m d) -> goes (at_hdr m) x.
Proof.
  intros E A m x H. unfold goes, at_hdr. destruct (sh_hdr x) as [h|]; [|apply H].
  specialize (H (handle_dev (sh_sys x) h)). unfold goes in H. destruct (m _). exact H.
Qed.
Lemma goes_rewind : forall d, goes dev_rewind d.
Proof.
  intros d. unfold goes. destruct (dev_rewind d) as [o d'] eqn:H. apply dev_seek_start_spec in H as (_ & _ & _ & H).
  destruct o; try contradiction; cbn; split; discriminate.
Qed.
Lemma goes_header : forall h b d, serialize h = Ok b -> goes (write_header_to h) d.
Proof.
  intros h b d S. unfold goes, write_header_to. rewrite S. erewrite bind_ok by reflexivity.
  apply calm_bind; [|intros; cbn; split; discriminate]. apply calm_map.
  destruct (dev_write b d) as [o d'] eqn:H. apply dev_write_spec in H as (_ & H).
  destruct o; try contradiction; cbn; split; discriminate.
Qed.
Lemma goes_write_all : forall l d, goes (dev_write_all l) d.
Proof.
  intros l d. unfold goes. destruct (dev_write_all l d) as [o d'] eqn:H. apply dev_write_all_spec in H as (_ & H).
  destruct o; try contradiction; cbn; split; discriminate.
Qed.
Lemma goes_flush : forall d, goes dev_flush d.
Proof.
  intros d. unfold goes. destruct (dev_flush d) as [o d'] eqn:H. apply dev_flush_spec in H as (_ & _ & _ & _ & H).
  destruct o; try contradiction; cbn; split; discriminate.
Qed.
Lemma goes_read : forall n d, goes (dev_read n) d.
Proof.
  intros n d. unfold goes. destruct (dev_read n d) as [o d'] eqn:H. apply dev_read_spec in H as (_ & _ & _ & H).
  destruct o; try contradiction; cbn; split; discriminate.
Qed.
Lemma put_goes : forall detached h b x, serialize h = Ok b -> goes (put_header_p shared_ports detached h) x.
Proof.
  intros detached h b x S. unfold goes, put_header_p.
  apply calm_bind; [apply calm_map, goes_out, goes_rewind|intros _ x1 _].
  destruct detached.
  - apply calm_bind; [apply calm_map, goes_hdr, goes_rewind|intros _ x2 _].
    apply goes_hdr. intros d. eapply goes_header; eauto.
  - apply goes_out. intros d. eapply goes_header; eauto.
Qed.

Lemma write_small : forall h b d o d', serialize h = Ok b -> length b = 416 ->
  d_data d = [] -> d_pos d = 0 -> write_header_to h d = (o, d') -> length (d_data d') <= 416.
Proof.
  intros h b d o d' S L D P H. unfold write_header_to in H. rewrite S in H.
  erewrite bind_ok in H by reflexivity. unfold bind, map_err in H.
  destruct (dev_write b d) as [o1 d1] eqn:W. apply dev_write_spec in W as (_ & W).
  assert (X : length (d_data d1) <= 416).
  { destruct o1 as [k|e| |]; try contradiction.
    - destruct W as (K & (W & _) & _). rewrite W, D, P. unfold write_at.
      destruct (firstn k b) as [|y l] eqn:F; [cbn; lia|]. rewrite <- F.
      rewrite !app_length, firstn_nil, skipn_nil, zeros_length, firstn_length. cbn [length Nat.sub]. lia.
    - destruct W as ((W & _) & _). rewrite W, D. cbn. lia. }
  destruct o1; cbn in H; inversion H; subst; exact X.
Qed.

Lemma put_keeps_inos : forall detached h x o x', put_header_p shared_ports detached h x = (o, x') ->
  h_ino (sh_in x') = h_ino (sh_in x) /\ h_ino (sh_out x') = h_ino (sh_out x).
Proof.
  intros detached h.
  enough (A : always (fun x x' => h_ino (sh_in x') = h_ino (sh_in x) /\ h_ino (sh_out x') = h_ino (sh_out x))
                     (put_header_p shared_ports detached h)) by exact A.
  set (R := fun x x' : shared => h_ino (sh_in x') = h_ino (sh_in x) /\ h_ino (sh_out x') = h_ino (sh_out x)).
  assert (RR : forall x, R x x) by (intros x; split; reflexivity).
  assert (RT : forall x y z, R x y -> R y z -> R x z) by (intros x y z (A & B) (C & D); split; congruence).
  assert (RO : forall E A (m : M dev E A), always R (p_out shared_ports m)).
  { intros E A m x o x' H. cbn [p_out shared_ports] in H. unfold at_out in H. destruct (m _).
    inversion H; subst. split; reflexivity. }
  assert (RH : forall E A (m : M dev E A), always R (p_hdr shared_ports m)).
  { intros E A m x o x' H. cbn [p_hdr shared_ports] in H. unfold at_hdr in H. destruct (sh_hdr x).
    - destruct (m _). inversion H; subst. split; reflexivity.
    - inversion H; subst. split; reflexivity. }
  unfold put_header_p. apply (always_bind _ RT); [apply always_map_err, RO|intros _].
  destruct detached; [|apply RO]. apply (always_bind _ RT); [apply always_map_err, RH|intros _]. apply RH.
Qed.

(** What the header leaves in a file that was empty. *)
Lemma put_small : forall detached h b n x u x', serialize h = Ok b -> length b = 416 ->
  s_data (sh_sys x) n = [] -> put_header_p shared_ports detached h x = (Ok u, x') ->
  length (s_data (sh_sys x') n) <= 416.
Proof.
  intros detached h b n x u x' S L D H. unfold put_header_p in H.
  apply bind_inv in H as [(u1 & x1 & H1 & H)|[(e & _ & X)|[(_ & X)|(_ & X)]]]; try discriminate X.
  apply map_err_inv in H1 as [(u1' & H1 & _)|[(e & _ & X)|[(_ & X)|(_ & X)]]]; try discriminate X.
  cbn [p_out shared_ports] in H1. unfold at_out in H1.
  destruct (dev_rewind _) as [o1 d1] eqn:R1. assert (o1 = Ok u1') by congruence. subst o1.
  apply dev_seek_start_spec in R1 as (_ & D1 & _ & P1). injection H1 as <-.
  assert (N1 : forall j, set_data (s_data (sh_sys x)) (h_ino (sh_out x)) (d_data d1) j = s_data (sh_sys x) j).
  { intros j. unfold set_data. destruct (Nat.eqb_spec j (h_ino (sh_out x))) as [->|]; auto. }
  destruct detached.
  - apply bind_inv in H as [(u2 & x2 & H2 & H)|[(e & _ & X)|[(_ & X)|(_ & X)]]]; try discriminate X.
    apply map_err_inv in H2 as [(u2' & H2 & _)|[(e & _ & X)|[(_ & X)|(_ & X)]]]; try discriminate X.
    cbn [p_hdr shared_ports] in H, H2. unfold at_hdr in H2. cbn [sh_hdr] in H2.
    destruct (sh_hdr x) as [g|] eqn:G.
    + cbn [sh_sys] in H2. destruct (dev_rewind _) as [o2 d2] eqn:R2. assert (o2 = Ok u2') by congruence. subst o2.
      apply dev_seek_start_spec in R2 as (_ & D2 & _ & P2). injection H2 as <-.
      unfold at_hdr in H. cbn [sh_hdr sh_sys] in H.
      destruct (write_header_to h _) as [o3 d3] eqn:W.
      assert (d_data (handle_dev (put_handle d2 g (put_handle d1 (sh_out x) (sh_sys x))) (move_handle d2 g))
              = s_data (sh_sys x) (h_ino g)) as DG.
      { cbn [handle_dev d_data move_handle h_ino put_handle with_data s_data]. unfold set_data at 1.
        rewrite Nat.eqb_refl, D2. cbn [handle_dev d_data put_handle with_data s_data]. apply N1. }
      inversion H; subst. cbn [sh_sys put_handle with_data s_data move_handle h_ino]. unfold set_data at 1.
      destruct (Nat.eqb_spec n (h_ino g)) as [->|NE].
      * eapply write_small; [exact S|exact L| | |exact W].
        -- rewrite DG. exact D.
        -- exact P2.
      * unfold set_data at 1. destruct (Nat.eqb_spec n (h_ino g)); [congruence|].
        rewrite N1, D. cbn. lia.
    + injection H2 as _ <-. unfold at_hdr in H. cbn [sh_hdr] in H. inversion H; subst.
      cbn [sh_sys put_handle with_data s_data]. rewrite N1, D. cbn. lia.
  - cbn [p_out shared_ports] in H. unfold at_out in H. cbn [sh_out sh_sys] in H.
    destruct (write_header_to h _) as [o3 d3] eqn:W.
    assert (d_data (handle_dev (put_handle d1 (sh_out x) (sh_sys x)) (move_handle d1 (sh_out x)))
            = s_data (sh_sys x) (h_ino (sh_out x))) as DG.
    { cbn [handle_dev d_data move_handle h_ino put_handle with_data s_data]. apply N1. }
    inversion H; subst. cbn [sh_sys put_handle with_data s_data move_handle h_ino]. unfold set_data at 1.
    destruct (Nat.eqb_spec n (h_ino (sh_out x))) as [->|NE].
    + eapply write_small; [exact S|exact L| | |exact W]; [rewrite DG; exact D|exact P1].
    + rewrite N1, D. cbn. lia.
Qed.

Lemma file_goes_apart : forall E bs s aad x, 0 < bs -> h_ino (sh_in x) <> h_ino (sh_out x) ->
  goes (encrypt_file_p shared_ports E bs s aad) x.
Proof.
  intros E bs s aad x B N. destruct x as [hi ho hh sy tr]. cbn [sh_in sh_out] in N.
  assert (SEP : separate hi ho hh true true false).
  { split; [auto|]. split; intros X; discriminate. }
  pose proof (rel_start hi ho hh true true false (sy, tr)) as R. cbn [fst snd] in R.
  destruct (rel_enc_file hi ho hh sy true true false SEP E bs s aad eq_refl eq_refl _ _ R) as (F & _).
  unfold goes. rewrite F, same_enc_file.
  destruct (encrypt_file_bs E bs s aad _) as [o w] eqn:H. apply encrypt_file_spec in H; [|exact B].
  destruct H as (_ & bl & la & cs & wr & n & _ & _ & _ & _ & _ & _ & _ & H).
  destruct o as [|[]| |]; cbn; try contradiction; split; discriminate.
Qed.

(** A file shorter than a block is read at once. *)
Lemma file_goes_short : forall E bs s aad x, length (s_data (sh_sys x) (h_ino (sh_in x))) < bs ->
  goes (encrypt_file_p shared_ports E bs s aad) x.
Proof.
  intros E bs s aad x B. unfold goes, encrypt_file_p.
  apply calm_bind; [|intros _ x' _; apply calm_map, goes_out, goes_flush].
  cbn [encrypt_loop_p]. apply calm_bind; [apply calm_map, calm_in; intros d; apply goes_read|].
  intros buf x1 H. apply map_err_inv in H as [(a & H & X)|[(e & _ & X)|[(_ & X)|(_ & X)]]]; try discriminate X.
  injection X as <-. cbn [p_in shared_ports] in H. unfold at_in in H.
  destruct (dev_read bs _) as [o d] eqn:R. assert (o = Ok buf) by congruence. subst o.
  apply dev_read_spec in R as (_ & _ & _ & G & _). cbn [handle_dev d_data] in G.
  assert (LB : length buf < bs).
  { rewrite G, firstn_length, skipn_length. lia. }
  replace (length buf =? bs) with false by (symmetry; apply Nat.eqb_neq; lia).
  apply calm_bind.
  - apply calm_map. rewrite fst_tr. unfold encrypt_last, stream_seal.
    destruct (aead_enc _ _ _ _ _ _); cbn; split; discriminate.
  - intros ct x2 _. apply calm_map, goes_out. intros d2. apply goes_write_all.
Qed.

Lemma block_large : 416 < BLOCK_SIZE.
Proof. unfold BLOCK_SIZE. apply Nat.ltb_lt. reflexivity. Qed.

Lemma encrypt_goes : forall E req x, v5_request req ->
  h_ino (sh_in x) <> h_ino (sh_out x) \/ s_data (sh_sys x) (h_ino (sh_in x)) = [] ->
  goes (encrypt_shared E req) x.
Proof.
  intros E req x HV AL. unfold goes, encrypt_shared, encrypt_execute_p.
  pose proof (keys_spec E req x HV) as K. unfold keyed in K.
  apply calm_bind.
  { destruct (fst (encrypt_keys_p shared_ports E req x)); try contradiction; split; discriminate. }
  intros [st h] x1 H1. rewrite H1 in K. cbn [fst] in K. destruct K as ((b & SB & LB) & aad & SA). cbn [fst snd].
  destruct (drawn_keys E req _ _ _ H1) as (g & t & ->).
  apply calm_bind; [eapply put_goes; eauto|]. intros u x2 H2.
  pose proof (put_keeps_inos _ _ _ _ _ H2) as (I2 & O2). cbn [sh_in sh_out] in I2, O2.
  rewrite SA. erewrite bind_ok by reflexivity.
  apply calm_bind; [apply calm_map, calm_in, goes_rewind|]. intros u3 x3 H3.
  assert (K3 : kept_as x2 x3).
  { eapply (always_map_err kept_as (fun _ : io_error => EncResetCursorPosition)); [|exact H3].
    apply kept_in, still_rewind. }
  destruct K3 as ((_ & D3 & _) & I3 & O3). apply calm_map.
  destruct AL as [NE|EM].
  - apply file_goes_apart; [pose proof block_large; lia|]. rewrite I3, I2, O3, O2. exact NE.
  - apply file_goes_short. rewrite D3, I3, I2.
    eapply Nat.le_lt_trans; [|exact block_large].
    eapply put_small; [exact SB|exact LB| |exact H2]. exact EM.
Qed.
