(** Proofs of the header properties C01-C08. *)
From Coq Require Import List Arith NArith ZArith Lia.
From Verif Require Import Bytes Outcome IO Primitives Crypto Header.
From Verif Require Import BytesFacts IOFacts HeaderSpec HeaderFacts.
Local Open Scope nat_scope.

Lemma at_cursor_firstn : forall d b, at_cursor d b ->
  firstn (length b) (skipn (d_pos d) (d_data d)) = b.
Proof. intros d b (tail & ->). now apply firstn_app_exact. Qed.

Lemma reread_same : forall h, wf_header h -> same_header h (reread h).
Proof.
  intros h Hwf. unfold reread, same_header.
  destruct (ht_version (h_type h)); cbn [h_type h_nonce h_keyslots h_salt]; auto;
    repeat split; auto; discriminate.
Qed.

Lemma reread_version : forall h, ht_version (h_type (reread h)) = ht_version (h_type h).
Proof. intros h. unfold reread. destruct (ht_version (h_type h)) eqn:E; cbn; auto. Qed.

(** Two headers read from the same bytes are the same. *)
Lemma deserialize_reads : forall h b d o d',
  wf_header h -> serialize h = Ok b -> at_cursor d b ->
  deserialize d = (o, d') ->
  match o with
  | Ok (h', aad) => h' = reread h /\ create_aad h = Ok aad
                    /\ d_data d' = d_data d /\ d_pos d' = d_pos d + length b
  | Err _ => d_plan d <> []
  | _ => False
  end.
Proof.
  intros h b d o d' Hwf Hs Hat H.
  destruct (serialize_ok h Hwf) as (b' & Hs' & Hlen & rest & Hb).
  rewrite Hs in Hs'. apply Ok_inj in Hs'. subst b'.
  destruct (parse_serialize h b Hwf Hs) as (aad & Hp & Haad).
  pose proof (at_cursor_firstn d b Hat) as Hf.
  pose proof (deserialize_spec _ _ _ H) as (A & B & C & D).
  destruct o as [[h' aad']|e| |]; try contradiction.
  - cbv zeta in D. destruct D as (D1 & D2 & D3 & D4).
    assert (Hv : ht_version (h_type h') = ht_version (h_type h)).
    { assert (Ht : firstn 2 (skipn (d_pos d) (d_data d)) = serialize_version (ht_version (h_type h))).
      { destruct Hat as (tail & ->). rewrite Hb, <- !app_assoc.
        rewrite tag_bytes_shape. destruct (ht_version (h_type h)); reflexivity. }
      rewrite firstn_firstn in D2.
      rewrite Nat.min_l in D2 by (destruct (ht_version (h_type h')); cbn; lia).
      rewrite D2 in Ht.
      destruct (ht_version (h_type h')), (ht_version (h_type h)); cbn in Ht; congruence. }
    rewrite Hv in D1, D3, D4. rewrite <- Hlen, Hf in D3.
    rewrite Hp in D3. inversion D3; subst. repeat split; auto. now rewrite Hlen.
  - intros Hplan.
    assert (deserialize d = (Ok (reread h, aad), set_pos (d_pos d + get_size (ht_version (h_type h))) d)) as E.
    { eapply deserialize_ok with (full := b); eauto.
      - now rewrite <- Hlen.
      - rewrite Hb, tag_bytes_shape. destruct (ht_version (h_type h)); reflexivity. }
    congruence.
Qed.

(** C01 *)
Lemma header_round_trip : forall h, wf_header h ->
  exists b, serialize h = Ok b /\
  forall d, at_cursor d b ->
    (d_plan d = [] ->
       exists h' aad, deserialize d = (Ok (h', aad), set_pos (d_pos d + length b) d)
                      /\ same_header h h')
    /\ (forall h' aad d', deserialize d = (Ok (h', aad), d') ->
          same_header h h' /\ d_data d' = d_data d /\ d_pos d' = d_pos d + length b).
Proof.
  intros h Hwf. destruct (serialize_ok h Hwf) as (b & Hs & Hlen & rest & Hb).
  exists b. split; [assumption|]. intros d Hat.
  destruct (parse_serialize h b Hwf Hs) as (aad & Hp & Haad). split.
  - intros Hplan. exists (reread h), aad. split; [|now apply reread_same].
    rewrite Hlen. eapply deserialize_ok with (full := b); eauto.
    + rewrite <- Hlen. symmetry. now apply at_cursor_firstn.
    + rewrite Hb, tag_bytes_shape. destruct (ht_version (h_type h)); reflexivity.
  - intros h' aad' d' H. pose proof (deserialize_reads _ _ _ _ _ Hwf Hs Hat H) as R.
    cbn in R. destruct R as (-> & R1 & R2 & R3). repeat split; auto; now apply reread_same.
Qed.

(** C02 *)
Lemma aad_agreement : forall h b d h' aad' d',
  wf_header h -> serialize h = Ok b -> at_cursor d b ->
  deserialize d = (Ok (h', aad'), d') -> create_aad h = Ok aad'.
Proof.
  intros h b d h' aad' d' Hwf Hs Hat H.
  pose proof (deserialize_reads _ _ _ _ _ Hwf Hs Hat H) as R. cbn in R. tauto.
Qed.

(** C03 *)
Lemma header_size_exact :
  (forall h b, wf_header h -> serialize h = Ok b ->
     length b = get_size (ht_version (h_type h)))
  /\ (forall d h aad d', deserialize d = (Ok (h, aad), d') ->
        d_pos d' = d_pos d + get_size (ht_version (h_type h))
        /\ d_pos d' <= length (d_data d) /\ d_data d' = d_data d)
  /\ map get_size [V1; V2; V3; V4; V5] = [64; 64; 64; 128; 416].
Proof.
  split; [|split].
  - intros h b Hwf Hs. destruct (serialize_ok h Hwf) as (b' & Hs' & Hlen & _).
    rewrite Hs in Hs'. apply Ok_inj in Hs'. now subst.
  - intros d h aad d' H. apply deserialize_spec in H as (A & B & C & D).
    cbv zeta in D. destruct D as (D1 & D2 & D3 & D4). split; [assumption|]. split; [|assumption].
    rewrite firstn_length, skipn_length in D1.
    assert (0 < get_size (ht_version (h_type h))) by (destruct (ht_version (h_type h)); cbn; lia).
    lia.
  - reflexivity.
Qed.

(** C04 *)
Lemma parser_total : forall d,
  (forall o d', deserialize d = (o, d') ->
     o <> Panic /\ o <> Diverge /\ d_data d' = d_data d /\ d_log d' = d_log d)
  /\ (d_plan d = [] ->
      forall t, (exists h aad d', deserialize d = (Ok (h, aad), d') /\ h_type h = t)
                <-> readable t (skipn (d_pos d) (d_data d))).
Proof.
  intros d. split.
  - intros o d' H. apply deserialize_spec in H as (A & B & C & D).
    repeat split; auto; destruct o as [[? ?]| | |]; try contradiction; discriminate.
  - intros Hp t. split.
    + intros (h & aad & d' & H & Ht). subst t.
      apply deserialize_spec in H as (A & B & C & D). cbv zeta in D.
      destruct D as (D1 & D2 & D3 & D4).
      set (v := ht_version (h_type h)) in *. set (l := skipn (d_pos d) (d_data d)) in *.
      destruct (parse_header_total v (firstn (get_size v) l) D1)
        as [(a & m & h' & P1 & P2 & P3 & P4 & P5)|((e & P1) & _)]; [|congruence].
      rewrite D3 in P3. inversion P3; subst h'. rewrite P4.
      unfold readable. cbn [ht_version ht_algorithm ht_mode].
      assert (Hsz : 64 <= get_size v) by (destruct v; cbn; lia).
      assert (Hll : get_size v <= length l) by (rewrite firstn_length in D1; lia).
      split; [|split; [exact Hll|]].
      * exists (skipn 6 l). rewrite <- (firstn_skipn 6 l) at 1. f_equal.
        replace (firstn 6 l)
          with (firstn 2 (firstn (get_size v) l) ++ slice 2 4 (firstn (get_size v) l)).
        -- rewrite D2, P1. destruct v; reflexivity.
        -- unfold slice. rewrite <- (firstn_split 2 4), firstn_firstn. f_equal. lia.
      * intros Hv. rewrite Hv in *. apply P2. reflexivity.
    + intros Hr. destruct (readable_accepts d t Hp Hr) as (h & aad & H & Ht). eauto 6.
Qed.

(** ** C05 *)

Lemma accepted_inv : forall d h aad d',
  deserialize d = (Ok (h, aad), d') ->
  let full := firstn (get_size (ht_version (h_type h))) (skipn (d_pos d) (d_data d)) in
  length full = get_size (ht_version (h_type h))
  /\ firstn 6 full = tag_bytes (h_type h)
  /\ aad = parse_aad (h_type h) full
  /\ parsed (h_type h) full = Ok (h, aad)
  /\ (ht_version (h_type h) <> V1 -> ht_version (h_type h) <> V2 ->
      wf_header h /\ reread h = h).
Proof.
  intros d h aad d' H. apply deserialize_spec in H as (A & B & C & D).
  cbv zeta in *. destruct D as (D1 & D2 & D3 & D4).
  set (v := ht_version (h_type h)) in *.
  set (full := firstn (get_size v) (skipn (d_pos d) (d_data d))) in *.
  destruct (parse_header_total v full D1)
    as [(a & m & h' & P1 & P2 & P3 & P4 & P5)|((e & P1) & _)]; [|congruence].
  rewrite D3 in P3. inversion P3; subst h'. rewrite P4.
  split; [assumption|]. split.
  { change 6 with (2 + 4). rewrite firstn_split, D2.
    change (firstn 4 (skipn 2 full)) with (slice 2 4 full). rewrite P1.
    destruct v, a, m; reflexivity. }
  split; [reflexivity|]. split.
  - rewrite parse_header_eq in D3 by assumption.
    destruct (parse_algorithm (slice 2 2 full)) as [a'|] eqn:Ea; [|discriminate].
    destruct (parse_mode (slice 4 2 full)) as [m'|] eqn:Em; [|discriminate].
    assert (Ht : h_type h = mkHT v a' m').
    { unfold parsed in D3. cbn [ht_version] in D3.
      destruct v; try (inversion D3; reflexivity).
      destruct (fst _); inversion D3. reflexivity. }
    rewrite Ht in P4. inversion P4; subst. exact D3.
  - intros N1 N2. apply P5. destruct v; try congruence; auto.
Qed.

Lemma tag_bytes_inj : forall t t', tag_bytes t = tag_bytes t' -> t = t'.
Proof. intros [[] [] []] [[] [] []] H; try reflexivity; discriminate H. Qed.

Lemma app_len_inj : forall {A} (a b c d : list A),
  length a = length c -> a ++ b = c ++ d -> a = c /\ b = d.
Proof.
  intros A a; induction a as [|x a IH]; intros b [|y c] d Hl H; cbn in *; try lia; auto.
  inversion H; subst. destruct (IH b c d) as [-> ->]; auto; lia.
Qed.

Lemma slice_firstn : forall off n k l, off + n <= k ->
  slice off n (firstn k l) = slice off n l.
Proof.
  intros. unfold slice. rewrite !firstn_skipn_comm, firstn_firstn. do 2 f_equal. lia.
Qed.

Lemma aad_binds : forall d1 h1 aad d1' d2 h2 d2',
  deserialize d1 = (Ok (h1, aad), d1') ->
  deserialize d2 = (Ok (h2, aad), d2') ->
  ~ In (ht_version (h_type h1)) [V1; V2] ->
  ~ In (ht_version (h_type h2)) [V1; V2] ->
  let b1 := skipn (d_pos d1) (d_data d1) in
  let b2 := skipn (d_pos d2) (d_data d2) in
  h_type h1 = h_type h2 /\ h_nonce h1 = h_nonce h2
  /\ match ht_version (h_type h1) with
     | V3 => firstn 64 b1 = firstn 64 b2
     | V4 => slice 0 48 b1 = slice 0 48 b2
             /\ (let e := 96 + get_nonce_len (ht_algorithm (h_type h1)) MemoryMode in
                 slice e (128 - e) b1 = slice e (128 - e) b2)
     | V5 => firstn 32 b1 = firstn 32 b2
     | _ => False
     end.
Proof.
  intros d1 h1 aad d1' d2 h2 d2' H1 H2 N1 N2. cbv zeta.
  apply accepted_inv in H1, H2. cbv zeta in *.
  destruct H1 as (A1 & A2 & A3 & A4 & _). destruct H2 as (B1 & B2 & B3 & B4 & _).
  remember (skipn (d_pos d1) (d_data d1)) as l1. remember (skipn (d_pos d2) (d_data d2)) as l2.
  set (f1 := firstn (get_size (ht_version (h_type h1))) l1) in *.
  set (f2 := firstn (get_size (ht_version (h_type h2))) l2) in *.
  assert (T1 : firstn 6 aad = tag_bytes (h_type h1)).
  { rewrite A3. unfold parse_aad. destruct (ht_version (h_type h1)) eqn:E; cbn in N1; try tauto.
    - rewrite firstn_app, firstn_firstn, <- A2. cbn [Nat.min].
      rewrite firstn_length, A1. cbn [get_size Nat.min Nat.sub firstn]. now rewrite app_nil_r.
    - rewrite firstn_firstn. exact A2. }
  assert (T2 : firstn 6 aad = tag_bytes (h_type h2)).
  { rewrite B3. unfold parse_aad. destruct (ht_version (h_type h2)) eqn:E; cbn in N2; try tauto.
    - rewrite firstn_app, firstn_firstn, <- B2. cbn [Nat.min].
      rewrite firstn_length, B1. cbn [get_size Nat.min Nat.sub firstn]. now rewrite app_nil_r.
    - rewrite firstn_firstn. exact B2. }
  assert (Ht : h_type h1 = h_type h2) by (apply tag_bytes_inj; congruence).
  split; [exact Ht|].
  assert (HA : parse_aad (h_type h1) f1 = parse_aad (h_type h1) f2) by congruence.
  rewrite <- Ht in B4, B1. unfold f2 in *. rewrite <- Ht in *. fold f1 in HA.
  set (f2' := firstn (get_size (ht_version (h_type h1))) l2) in *.
  destruct (nonce_len_bounds (ht_algorithm (h_type h1)) (ht_mode (h_type h1))) as (C1 & C2 & C3).
  destruct (nonce_len_bounds (ht_algorithm (h_type h1)) MemoryMode) as (E1 & E2 & E3).
  unfold parse_aad in HA. unfold parsed in A4, B4.
  destruct (ht_version (h_type h1)) eqn:E; cbn in N1; try tauto; cbn [get_size] in *.
  - split; [|exact HA]. inversion A4; inversion B4. cbn [h_nonce]. now rewrite HA.
  - apply app_len_inj in HA as (HA1 & HA2).
    2:{ rewrite !firstn_length. lia. }
    split; [|split].
    + inversion A4; inversion B4. cbn [h_nonce].
      rewrite <- (slice_firstn 22 _ 48 f1), <- (slice_firstn 22 _ 48 f2') by lia.
      now rewrite HA1.
    + unfold slice, f1, f2' in *. rewrite !firstn_firstn in HA1. exact HA1.
    + unfold slice, f1, f2' in *. rewrite !firstn_skipn_comm.
      replace (96 + get_nonce_len (ht_algorithm (h_type h1)) MemoryMode
               + (128 - (96 + get_nonce_len (ht_algorithm (h_type h1)) MemoryMode)))
        with 128 by lia.
      exact HA2.
  - split.
    + destruct (fst (parse_slots _ _ _ (skipn 32 f1))); try discriminate.
      destruct (fst (parse_slots _ _ _ (skipn 32 f2'))); try discriminate.
      inversion A4; inversion B4. cbn [h_nonce].
      rewrite <- (slice_firstn 6 _ 32 f1), <- (slice_firstn 6 _ 32 f2') by lia.
      now rewrite HA.
    + unfold f1, f2' in HA. rewrite !firstn_firstn in HA. exact HA.
Qed.

(** ** C06 *)

Lemma slice_app : forall off n m l, slice off (n + m) l = slice off n l ++ slice (off + n) m l.
Proof. intros. unfold slice. now rewrite firstn_split, skipn_skipn'. Qed.

Lemma slice_all : forall l n, length l = n -> slice 0 n l = l.
Proof. intros l n <-. unfold slice. apply firstn_all. Qed.

Lemma slice_tail : forall off l n, length l = off + n -> slice off n l = skipn off l.
Proof. intros off l n H. unfold slice. apply firstn_all2. rewrite skipn_length. lia. Qed.

Lemma slots_canonical : forall a n k r l,
  let nl := get_nonce_len a MemoryMode in
  k <= n -> length r = 96 * n ->
  (forall i, i < k ->
     slice (96 * i) 1 r = [xdf]
     /\ slice (96 * i + 50 + nl) (24 - nl) r = zeros (24 - nl)
     /\ slice (96 * i + 90) 6 r = zeros 6) ->
  skipn (96 * k) r = zeros (96 * (n - k)) ->
  forall acc, fst (parse_slots n nl acc r) = Ok (acc ++ l) ->
  length l = k
  /\ concat (map (slot_bytes a) l) ++ zeros (96 * (n - k)) = r.
Proof.
  intros a. induction n as [|n IH]; intros k r l nl Hk Hlen Hslot Hz acc Hp.
  - assert (k = 0) by lia. subst k. destruct r; cbn in Hlen; [|lia].
    cbn in Hp. inversion Hp as [Hacc]. rewrite <- (app_nil_r acc) in Hacc at 1.
    apply app_inv_head in Hacc. subst l. auto.
  - destruct k as [|k].
    + rewrite Nat.mul_0_r in Hz. cbn [skipn] in Hz. rewrite Nat.sub_0_r in *. subst r.
      rewrite <- (app_nil_r (zeros (96 * S n))) in Hp at 1.
      rewrite parse_slots_zeros in Hp by lia. cbn [fst] in Hp.
      inversion Hp as [Hacc]. rewrite <- (app_nil_r acc) in Hacc at 1.
      apply app_inv_head in Hacc. subst l. auto.
    + destruct (nonce_len_bounds a MemoryMode) as (E1 & E2 & E3). fold nl in E1, E2, E3.
      destruct (bytes_2 r) as (x & y & r' & ->); [lia|]. cbn [length] in Hlen.
      destruct (Hslot 0) as (S1 & S2 & S3); [lia|].
      rewrite Nat.mul_0_r, ?Nat.add_0_l in S1, S2, S3.
      assert (x = xdf) by (unfold slice in S1; cbn in S1; congruence). subst x.
      unfold nl in Hp. rewrite parse_slots_full in Hp by lia. fold nl in Hp.
      destruct (parse_slot_id [xdf; y]) as [h|] eqn:Eh; [|discriminate].
      apply parse_slot_id_inv in Eh as (Hh & Hid).
      set (ks := mkSlot h (slice 0 48 r') (slice 48 nl r') (slice 72 16 r')) in *.
      assert (Hl : exists l', l = ks :: l').
      { destruct (parse_slots_total n a (acc ++ [ks]) (skipn 94 r')) as [(new & N1 & _)|(N1 & _)].
        { rewrite skipn_length. lia. }
        - fold nl in N1. rewrite Hp in N1. inversion N1 as [Hacc].
          rewrite <- app_assoc in Hacc. apply app_inv_head in Hacc. eauto.
        - fold nl in N1. congruence. }
      destruct Hl as (l' & ->).
      change (ks :: l') with ([ks] ++ l') in Hp. rewrite app_assoc in Hp.
      assert (Hsl : forall off m, slice (96 + off) m (xdf :: y :: r') = slice off m (skipn 94 r')).
      { intros off m. unfold slice. rewrite skipn_skipn'. reflexivity. }
      edestruct (IH k (skipn 94 r') l') as (L1 & L2); [lia| | | |exact Hp|].
      * rewrite skipn_length. lia.
      * intros i Hi. fold nl. destruct (Hslot (S i)) as (U1 & U2 & U3); [lia|].
        rewrite <- !Hsl. replace (96 + 96 * i) with (96 * S i) by lia.
        replace (96 + (96 * i + 50 + nl)) with (96 * S i + 50 + nl) by lia.
        replace (96 + (96 * i + 90)) with (96 * S i + 90) by lia. auto.
      * rewrite skipn_skipn'. replace (96 * S k) with (2 + (94 + 96 * k)) in Hz by lia.
        cbn [Nat.add skipn] in Hz. exact Hz.
      * split; [cbn [length]; lia|].
        cbn [map concat]. rewrite <- app_assoc. cbn [Nat.sub]. rewrite L2.
        unfold slot_bytes. rewrite keyslot_serialize_id. cbn [ks_hash ks_enc ks_nonce ks_salt ks].
        rewrite <- Hid. fold nl.
        assert (S2' : slice (48 + nl) (24 - nl) r' = zeros (24 - nl)) by exact S2.
        assert (S3' : slice 88 6 r' = zeros 6) by exact S3.
        rewrite <- S2', <- S3', <- !app_assoc. cbn [app]. do 2 f_equal.
        transitivity (slice 0 94 r' ++ skipn 94 r'); [|apply (firstn_skipn 94)].
        rewrite !app_assoc. f_equal. rewrite <- !app_assoc.
        change 88 with (72 + 16). rewrite <- (slice_app 72).
        replace (slice 72 (16 + 6) r')
          with (slice (48 + nl + (24 - nl)) (16 + 6) r') by (f_equal; lia).
        rewrite <- (slice_app (48 + nl)), <- (slice_app 48).
        change 48 with (0 + 48) at 2.
        rewrite <- (slice_app 0). f_equal. lia.
Qed.

Lemma reserialize : forall d h aad d',
  deserialize d = (Ok (h, aad), d') ->
  ~ In (ht_version (h_type h)) [V1; V2] ->
  let v := ht_version (h_type h) in
  let full := firstn (get_size v) (skipn (d_pos d) (d_data d)) in
  let a := ht_algorithm (h_type h) in
  let m := ht_mode (h_type h) in
  exists b, serialize h = Ok b /\ length b = length full
    /\ (forall e, d_plan e = [] -> at_cursor e b ->
          exists aad', deserialize e = (Ok (h, aad'), set_pos (d_pos e + length b) e))
    /\ (v = V3 -> canonical_v3 a m full -> b = full)
    /\ (v = V4 -> canonical_v4 a m full -> b = full)
    /\ (v = V5 -> canonical_v5 a m full -> b = full).
Proof.
  intros d h aad d' H N. cbv zeta.
  apply accepted_inv in H. cbv zeta in H. destruct H as (A1 & A2 & A3 & A4 & A5).
  destruct A5 as (Hwf & Hre); [intros E; apply N; rewrite E; cbn; auto ..|].
  set (full := firstn (get_size (ht_version (h_type h))) (skipn (d_pos d) (d_data d))) in *.
  destruct (serialize_ok h Hwf) as (b & Hs & Hlen & _).
  exists b. split; [assumption|]. split; [congruence|]. split.
  { intros e Hp Hat. destruct (header_round_trip h Hwf) as (b' & Hs' & R).
    rewrite Hs in Hs'. apply Ok_inj in Hs'. subst b'. destruct (R e Hat) as (R1 & _).
    destruct (R1 Hp) as (h' & aad' & R2 & _). exists aad'. rewrite R2.
    pose proof (deserialize_reads _ _ _ _ _ Hwf Hs Hat R2) as (-> & _). now rewrite Hre. }
  destruct (nonce_len_bounds (ht_algorithm (h_type h)) (ht_mode (h_type h))) as (C1 & C2 & C3).
  destruct (nonce_len_bounds (ht_algorithm (h_type h)) MemoryMode) as (E1 & E2 & E3).
  set (nl := get_nonce_len (ht_algorithm (h_type h)) (ht_mode (h_type h))) in *.
  set (ml := get_nonce_len (ht_algorithm (h_type h)) MemoryMode) in *.
  assert (Hfull : forall n, length full = n -> full = slice 0 6 full ++ slice 6 (n - 6) full -> True) by auto.
  assert (A2' : slice 0 6 full = tag_bytes (h_type h)) by exact A2.
  unfold serialize in Hs. unfold parsed in A4. fold nl ml in A4.
  destruct (ht_version (h_type h)) eqn:E; try (exfalso; apply N; cbn; auto; fail);
    cbn [get_size] in *; (split; [|split]); intros Hv; try discriminate; clear Hv.
  - intros (L & P1 & P2). fold nl in P2. unfold serialize_v3 in Hs.
    inversion A4 as [[Hh Ha]]. rewrite <- Hh in Hs. cbn [h_salt h_type h_nonce] in Hs.
    apply Ok_inj in Hs. subst b.
    unfold nonce_padding. fold nl.
    rewrite <- A2', <- P1, <- P2.
    rewrite <- (slice_app 38), <- (slice_app 22), <- (slice_app 6), <- (slice_app 0).
    apply slice_all. lia.
  - intros (L & P1 & P2). fold nl ml in P1, P2. unfold serialize_v4 in Hs.
    inversion A4 as [[Hh Ha]]. rewrite <- Hh in Hs.
    cbn [h_salt h_type h_nonce h_keyslots ks_enc ks_nonce ks_salt] in Hs.
    apply Ok_inj in Hs. subst b.
    unfold nonce_padding. fold nl ml.
    rewrite <- P1, <- P2.
    replace (skipn (96 + ml) full) with (slice (96 + ml) (32 - ml) full)
      by (apply slice_tail; lia).
    rewrite <- A2'. rewrite <- (slice_app 96), <- (slice_app 48).
    replace (slice 48 (48 + (ml + (32 - ml))) full)
      with (slice (22 + nl + (26 - nl)) (48 + (ml + (32 - ml))) full) by (f_equal; lia).
    rewrite <- (slice_app (22 + nl)), <- (slice_app 22), <- (slice_app 6), <- (slice_app 0).
    apply slice_all. lia.
  - intros (L & P1 & k & K1 & K2 & K3). fold nl ml in P1, K2.
    destruct (fst (parse_slots 4 ml [] (skipn 32 full))) as [l| | |] eqn:Ep; try discriminate.
    assert (K4 : length l = k
       /\ concat (map (slot_bytes (ht_algorithm (h_type h))) l) ++ zeros (96 * (4 - k)) = skipn 32 full).
    { eapply slots_canonical with (acc := []); eauto.
      - rewrite skipn_length. lia.
      - fold ml. intros i Hi. destruct (K2 i Hi) as (Q1 & Q2 & Q3).
        unfold slice in *. rewrite !skipn_skipn', !Nat.add_assoc. auto.
      - rewrite skipn_skipn', K3. f_equal. lia. }
    destruct K4 as (K4 & K5).
    unfold serialize_v5 in Hs.
    inversion A4 as [[Hh Ha]]. rewrite <- Hh in Hs.
    cbn [h_salt h_type h_nonce h_keyslots] in Hs.
    destruct (Nat.leb_spec (length l) 4) as [_|]; [|lia].
    apply Ok_inj in Hs. subst b. rewrite concat_repeat_zeros, K4, K5.
    unfold nonce_padding. fold nl. rewrite <- P1.
    replace (skipn 32 full) with (slice 32 384 full) by (apply slice_tail; lia).
    replace (slice 32 384 full) with (slice (6 + nl + (26 - nl)) 384 full) by (f_equal; lia).
    rewrite <- A2'.
    rewrite <- (slice_app (6 + nl)), <- (slice_app 6), <- (slice_app 0).
    apply slice_all. lia.
Qed.

(** C07 *)
Lemma deprecated_never_written : forall h d,
  In (ht_version (h_type h)) [V1; V2] ->
  serialize h = Err HDeprecated /\ create_aad h = Err HDeprecated
  /\ header_write h d = (Err HDeprecated, d).
Proof.
  intros h d H.
  assert (Hs : serialize h = Err HDeprecated /\ create_aad h = Err HDeprecated).
  { unfold serialize, create_aad. destruct H as [H|[H|[]]]; rewrite <- H; auto. }
  destruct Hs as (H1 & H2). repeat split; auto.
  unfold header_write, lift, bind. now rewrite H1.
Qed.

(** C08: a V5 header with sized keyslots keeps its keyslots iff all of them use
    known hashing parameters. *)
Lemma slots_survive_iff : forall h l b,
  ht_version (h_type h) = V5 -> nonce_sized h -> h_keyslots h = Some l ->
  length l <= 4 -> Forall (slot_sized (ht_algorithm (h_type h))) l ->
  serialize h = Ok b ->
  (Forall (fun k => known_hash (ks_hash k)) l
   <-> exists h' aad d', deserialize (dev_of b) = (Ok (h', aad), d')
                         /\ h_keyslots h' = Some l).
Proof.
  intros h l b Hv Hn Hk Hl Hsz Hs. split.
  - intros Hknown.
    assert (Hwf : wf_header h).
    { right. right. split; [assumption|]. split; [assumption|]. exists l. repeat split; auto.
      rewrite Forall_forall in *. intros k Hin. split; auto. }
    destruct (header_round_trip h Hwf) as (b' & Hs' & R).
    rewrite Hs in Hs'. apply Ok_inj in Hs'. subst b'.
    destruct (R (dev_of b)) as (R1 & _).
    { exists []. cbn. now rewrite app_nil_r. }
    destruct (R1 eq_refl) as (h' & aad & R2 & (S1 & S2 & S3 & S4)).
    exists h', aad. eexists. split; [exact R2|]. congruence.
  - intros (h' & aad & d' & Hd & Hk').
    apply accepted_inv in Hd. cbv zeta in Hd. destruct Hd as (_ & _ & _ & A4 & A5).
    assert (Hslots : forall k, In k l -> exists a, slot_wf a k).
    { destruct (ht_version (h_type h')) eqn:Ev'.
      1-3: unfold parsed in A4; rewrite Ev' in A4; apply Ok_inj, (f_equal fst) in A4;
        cbn [fst] in A4; rewrite <- A4 in Hk'; discriminate.
      - destruct A5 as ([(? & _)|[(_ & _ & k & K1 & K2 & K3 & _)|(? & _)]] & _); try congruence.
        rewrite Hk' in K1. inversion K1; subst. intros k' [<-|[]].
        exists (ht_algorithm (h_type h')). split; [assumption|]. rewrite K3.
        unfold known_hash; cbn; tauto.
      - destruct A5 as ([(? & _)|[(? & _)|(_ & _ & l' & K1 & K2 & K3)]] & _); try congruence.
        rewrite Hk' in K1. inversion K1; subst. rewrite Forall_forall in K3. eauto. }
    rewrite Forall_forall. intros k Hin. destruct (Hslots k Hin) as (a & _ & Hkn). exact Hkn.
Qed.
