(** Proofs of the streaming properties C09-C16. *)
From Coq Require Import List Arith NArith Lia Bool.
From Verif Require Import Bytes Outcome IO Primitives Crypto Stream.
From Verif Require Import BytesFacts IOFacts StreamSpec StreamFacts.
Local Open Scope nat_scope.

Lemma BLOCK_SIZE_pos : 0 < BLOCK_SIZE.
Proof. unfold BLOCK_SIZE. lia. Qed.

(** ** Blocks *)

Lemma concat_blocks_length : forall bs (bl : list bytes),
  Forall (fun b => length b = bs) bl -> length (concat bl) = length bl * bs.
Proof.
  induction 1 as [|b bl Hb H IH]; cbn [concat length]; [reflexivity|].
  rewrite app_length, Hb, IH. lia.
Qed.

Lemma blocks_count : forall bs (bl : list bytes) last, 0 < bs ->
  Forall (fun b => length b = bs) bl -> length last < bs ->
  length (concat bl ++ last) / bs = length bl.
Proof.
  intros bs bl last Hbs Hall Hl.
  rewrite app_length, (concat_blocks_length bs) by assumption.
  rewrite Nat.div_add_l by lia. rewrite (Nat.div_small (length last)) by assumption. lia.
Qed.

Lemma block_nth : forall bs (bl : list bytes) last i, 0 < bs ->
  Forall (fun b => length b = bs) bl -> length last < bs -> i <= length bl ->
  nth_error (bl ++ [last]) i = Some (block bs i (concat bl ++ last)).
Proof.
  intros bs bl last i Hbs Hall Hl. revert i. induction Hall as [|b bl Hb Hall IH]; intros i Hi.
  - cbn in Hi. assert (i = 0) by lia. subst i. cbn. unfold block. cbn [Nat.mul skipn].
    rewrite firstn_all2 by lia. reflexivity.
  - destruct i as [|i].
    + cbn. unfold block. cbn [Nat.mul skipn]. rewrite <- app_assoc.
      now rewrite firstn_app_exact by auto.
    + cbn [app nth_error concat]. rewrite IH by (cbn in Hi; lia). unfold block.
      f_equal. f_equal. rewrite <- app_assoc. cbn [Nat.mul].
      rewrite <- (skipn_skipn' (i * bs) bs). now rewrite (skipn_app_exact b) by auto.
Qed.

(** ** Nonces *)

Lemma nonce_at_ctr : forall s i last, s_pos s = 0%N -> (N.of_nat i < 2 ^ 31)%N ->
  nonce_at (shift s i) last = ctr_nonce (s_prefix s) i last.
Proof.
  intros s i last H Hi. unfold nonce_at, le31_nonce, ctr_nonce, shift.
  cbn [s_prefix s_pos]. rewrite H, N.add_0_l, lor_flag by assumption. reflexivity.
Qed.

Lemma ctr_nonce_inj : forall p p' i j b b', length p = length p' ->
  (N.of_nat i < 2 ^ 31)%N -> (N.of_nat j < 2 ^ 31)%N ->
  ctr_nonce p i b = ctr_nonce p' j b' -> p = p' /\ i = j /\ b = b'.
Proof.
  intros p p' i j b b' Hl Hi Hj H. unfold ctr_nonce in H.
  assert (p = p').
  { apply (f_equal (firstn (length p))) in H.
    rewrite firstn_app_exact in H by reflexivity.
    rewrite Hl, firstn_app_exact in H by reflexivity. exact H. }
  subst p'. apply app_inv_head in H.
  apply le32_inj in H.
  - destruct b, b'; split; auto; split; try reflexivity; try lia.
  - destruct b; lia.
  - destruct b'; lia.
Qed.

Lemma stream_nonces_nodup : forall p n, (N.of_nat n < 2 ^ 31)%N -> NoDup (stream_nonces p n).
Proof.
  intros p n Hn. unfold stream_nonces.
  assert (Hmap : NoDup (map (fun i => ctr_nonce p i false) (seq 0 n))).
  { assert (G : forall k m, (N.of_nat (k + m) < 2 ^ 31)%N ->
                NoDup (map (fun i => ctr_nonce p i false) (seq k m))).
    { intros k m; revert k; induction m as [|m IH]; intros k Hk; cbn [seq map]; constructor.
      - rewrite in_map_iff. intros (j & Hj & Hin). apply in_seq in Hin.
        apply ctr_nonce_inj in Hj as (_ & Hj & _); auto; lia.
      - apply IH. lia. }
    apply (G 0 n). exact Hn. }
  rewrite <- (rev_involutive (_ ++ _)). apply NoDup_rev. rewrite rev_app_distr. cbn [rev app].
  constructor; [|now apply NoDup_rev].
  rewrite <- in_rev, in_map_iff. intros (j & Hj & Hin). apply in_seq in Hin.
  apply ctr_nonce_inj in Hj as (_ & _ & Hj); auto; [discriminate|lia].
Qed.

Lemma prefix_nodup : forall {A} (a b : list A), prefix_of a b -> NoDup b -> NoDup a.
Proof.
  intros A a b (c & ->) H. induction a as [|x a IH]; [constructor|].
  cbn in H. inversion H; subst. constructor; [|now apply IH].
  intros Hin. apply H2. apply in_or_app. now left.
Qed.

Lemma prefix_refl : forall {A} (a : list A), prefix_of a a.
Proof. intros. exists []. now rewrite app_nil_r. Qed.

Lemma prefix_trans : forall {A} (a b c : list A), prefix_of a b -> prefix_of b c -> prefix_of a c.
Proof. intros A a b c (x & ->) (y & ->). exists (x ++ y). now rewrite app_assoc. Qed.

Lemma prefix_firstn : forall {A} n (l : list A), prefix_of (firstn n l) l.
Proof. intros. exists (skipn n l). symmetry. apply firstn_skipn. Qed.

(** ** Initialised streams *)

Definition stream_ok (s : stream) (key nonce : bytes) (a : algorithm) : Prop :=
  s = mkStream a key nonce 0 /\ length key = 32
  /\ length nonce = get_nonce_len a StreamMode.

Lemma enc_init_ok : forall key nonce a s,
  enc_stream_initialize key nonce a = Ok s -> stream_ok s key nonce a.
Proof.
  intros key nonce a s H. unfold enc_stream_initialize in H.
  destruct (Nat.eqb_spec (length nonce)
    match a with Aes256Gcm => 8 | XChaCha20Poly1305 => 20 | DeoxysII256 => 11 end) as [Hn|];
    cbn [negb] in H; [|discriminate].
  destruct (Nat.eqb_spec (length key) 32) as [Hk|]; [|discriminate].
  inversion H; subst. split; [reflexivity|]. split; [assumption|]. rewrite Hn. destruct a; reflexivity.
Qed.

Lemma enc_init_complete : forall key nonce a, length key = 32 ->
  length nonce = get_nonce_len a StreamMode ->
  enc_stream_initialize key nonce a = Ok (mkStream a key nonce 0).
Proof.
  intros key nonce a Hk Hn. unfold enc_stream_initialize. rewrite Hk, Hn.
  destruct a; reflexivity.
Qed.

Lemma dec_init_complete : forall key nonce a, length key = 32 ->
  length nonce = get_nonce_len a StreamMode ->
  dec_stream_initialize key nonce a = Ok (mkStream a key nonce 0).
Proof.
  intros key nonce a Hk Hn. unfold dec_stream_initialize.
  rewrite Hk, Hn, !Nat.eqb_refl. reflexivity.
Qed.

Lemma nonce_total_length : forall a p i b,
  length p = get_nonce_len a StreamMode ->
  length (ctr_nonce p i b) = get_nonce_len a MemoryMode.
Proof. intros a p i b H. unfold ctr_nonce. rewrite app_length, H, le32_length. destruct a; reflexivity. Qed.

Lemma shift_prefix : forall s n, s_prefix (shift s n) = s_prefix s.
Proof. reflexivity. Qed.

(** ** Runs against the specification *)

Lemma nth_error_map_inv : forall {A B} (f : A -> B) l i y,
  nth_error (map f l) i = Some y -> exists x, nth_error l i = Some x /\ f x = y.
Proof.
  intros A B f l; induction l as [|x l IH]; intros [|i] y H; cbn in *; try discriminate.
  - inversion H; eauto.
  - auto.
Qed.

Lemma seq_nth_error : forall i k n, i < n -> nth_error (seq k n) i = Some (k + i).
Proof.
  induction i as [|i IH]; intros k [|n] H; cbn [seq nth_error]; try lia.
  - f_equal. lia.
  - rewrite IH by lia. f_equal. lia.
Qed.

Lemma run_nonces : forall (f : nat -> bytes) n z i, i <= n ->
  nth_error (map f (seq 0 n) ++ [z]) i = Some (if i =? n then z else f i).
Proof.
  intros f n z i Hi. destruct (Nat.eqb_spec i n) as [->|Hne].
  - rewrite nth_error_app2; rewrite map_length, seq_length; [|lia].
    now rewrite Nat.sub_diag.
  - rewrite nth_error_app1 by (rewrite map_length, seq_length; lia).
    apply (map_nth_error f). rewrite seq_nth_error by lia. reflexivity.
Qed.

Lemma enc_run_is_ciphertext : forall E aad s key nonce a bs bl last cs,
  0 < bs -> (counter_max E < 2 ^ 31)%N ->
  stream_ok s key nonce a ->
  enc_run E aad s bl (Some last) cs ->
  Forall (fun b => length b = bs) bl -> length last < bs ->
  is_ciphertext E a key nonce aad bs (concat bl ++ last) (concat (map c_ct cs))
  /\ length (concat bl ++ last) / bs = length bl
  /\ map c_nonce cs = stream_nonces nonce (length bl)
  /\ (N.of_nat (length bl) <= counter_max E)%N.
Proof.
  intros E aad s key nonce a bs bl last cs Hbs Hmax (-> & Hk & Hn) Hr Hall Hlast.
  pose proof (enc_run_calls _ _ _ _ _ _ Hr) as (A & B & C).
  pose proof (enc_run_counter _ _ _ _ _ _ Hr) as D. cbn [s_pos s_alg s_key s_prefix] in *.
  specialize (D ltac:(lia)). rewrite N.add_0_l in D.
  pose proof (blocks_count bs bl last Hbs Hall Hlast) as Hc.
  assert (HN : map c_nonce cs = stream_nonces nonce (length bl)).
  { rewrite B. unfold stream_nonces. apply f_equal2.
    - apply map_ext_in. intros i Hi. apply in_seq in Hi.
      rewrite nonce_at_ctr; [reflexivity|reflexivity|lia].
    - rewrite nonce_at_ctr; [reflexivity|reflexivity|lia]. }
  split; [|auto]. unfold is_ciphertext. rewrite Hc.
  exists (map c_ct cs). split; [reflexivity|]. split.
  { rewrite map_length. apply run_lengths with (f := c_msg) (o := Some last) in A. rewrite A. lia. }
  intros i Hi.
  assert (Hm : nth_error (map c_msg cs) i = Some (block bs i (concat bl ++ last))).
  { rewrite A. now apply block_nth. }
  assert (Hnn : nth_error (map c_nonce cs) i = Some (ctr_nonce nonce i (i =? length bl))).
  { rewrite HN. unfold stream_nonces. rewrite run_nonces by assumption.
    destruct (Nat.eqb_spec i (length bl)); subst; reflexivity. }
  apply nth_error_map_inv in Hm as (c & Hc1 & Hc2).
  apply nth_error_map_inv in Hnn as (c' & Hc1' & Hc2').
  rewrite Hc1 in Hc1'. inversion Hc1'; subst c'.
  rewrite Forall_forall in C. destruct (C c (nth_error_In _ _ Hc1)) as (C1 & C2 & C3 & C4).
  rewrite <- Hc2, <- Hc2', <- C1, <- C2, <- C3, C4. now apply map_nth_error.
Qed.

Lemma dec_run_is_plaintext : forall E aad s key nonce a bs bl last cs,
  (counter_max E < 2 ^ 31)%N ->
  stream_ok s key nonce a ->
  dec_run E aad s bl (Some last) cs ->
  Forall (fun b => length b = bs + 16) bl -> length last < bs + 16 ->
  is_plaintext E a key nonce aad bs (concat bl ++ last) (concat (map c_msg cs)).
Proof.
  intros E aad s key nonce a bs bl last cs Hmax (-> & Hk & Hn) Hr Hall Hlast.
  assert (Hbs : 0 < bs + 16) by lia.
  pose proof (dec_run_calls _ _ _ _ _ _ Hr) as (A & B & C).
  pose proof (dec_run_counter _ _ _ _ _ _ Hr) as D. cbn [s_pos s_alg s_key s_prefix] in *.
  specialize (D ltac:(lia)). rewrite N.add_0_l in D.
  pose proof (blocks_count (bs + 16) bl last Hbs Hall Hlast) as Hc.
  assert (HN : map c_nonce cs = stream_nonces nonce (length bl)).
  { rewrite B. unfold stream_nonces. apply f_equal2.
    - apply map_ext_in. intros i Hi. apply in_seq in Hi.
      rewrite nonce_at_ctr; [reflexivity|reflexivity|lia].
    - rewrite nonce_at_ctr; [reflexivity|reflexivity|lia]. }
  unfold is_plaintext. rewrite Hc.
  exists (map c_msg cs). split; [reflexivity|]. split.
  { rewrite map_length. apply run_lengths with (f := c_ct) (o := Some last) in A. rewrite A. lia. }
  intros i Hi.
  assert (Hm : nth_error (map c_ct cs) i = Some (block (bs + 16) i (concat bl ++ last))).
  { rewrite A. now apply block_nth. }
  assert (Hnn : nth_error (map c_nonce cs) i = Some (ctr_nonce nonce i (i =? length bl))).
  { rewrite HN. unfold stream_nonces. rewrite run_nonces by assumption.
    destruct (Nat.eqb_spec i (length bl)); subst; reflexivity. }
  apply nth_error_map_inv in Hm as (c & Hc1 & Hc2).
  apply nth_error_map_inv in Hnn as (c' & Hc1' & Hc2').
  rewrite Hc1 in Hc1'. inversion Hc1'; subst c'.
  rewrite Forall_forall in C. destruct (C c (nth_error_In _ _ Hc1)) as (C1 & C2 & C3 & C4).
  rewrite <- Hc2, <- Hc2', <- C1, <- C2, <- C3, C4. now apply map_nth_error.
Qed.

Lemma is_ciphertext_length : forall E a key nonce aad bs p ct,
  env_ok E -> 0 < bs -> is_ciphertext E a key nonce aad bs p ct ->
  length ct = length p + 16 * (length p / bs + 1).
Proof.
  intros E a key nonce aad bs p ct HE Hbs (cs & -> & Hlen & Hnth).
  set (n := length p / bs) in *.
  assert (G : forall k l, k + length l = S n ->
    (forall i, i < length l -> nth_error l i
        = aead_enc E a key (ctr_nonce nonce (k + i) (k + i =? n)) aad (block bs (k + i) p)) ->
    length (concat l) = length (skipn (k * bs) p) + 16 * length l).
  { intros k l. revert k. induction l as [|c l IH]; intros k Hk Hl.
    - cbn [length concat] in *. rewrite skipn_all2; [reflexivity|].
      assert (k = S n) by lia. subst k. unfold n. cbn [Nat.mul].
      pose proof (Nat.mul_succ_div_gt (length p) bs ltac:(lia)). lia.
    - cbn [length concat] in *. rewrite app_length.
      assert (Hc : aead_enc E a key (ctr_nonce nonce k (k =? n)) aad (block bs k p) = Some c).
      { specialize (Hl 0 ltac:(lia)). cbn [nth_error] in Hl. rewrite Nat.add_0_r in Hl. auto. }
      apply (aead_length _ HE) in Hc. rewrite Hc.
      rewrite (IH (S k)); [|lia|].
      + unfold block. rewrite firstn_length, !skipn_length. cbn [Nat.mul].
        destruct (Nat.eq_dec k n) as [->|Hne].
        * assert (l = []) by (destruct l; cbn [length] in *; [reflexivity|lia]). subst l.
          assert (length p - n * bs < bs).
          { unfold n. pose proof (Nat.mul_succ_div_gt (length p) bs ltac:(lia)). lia. }
          cbn [length]. lia.
        * assert (k * bs + bs <= length p).
          { assert (Hd : S k * bs <= n * bs) by (apply Nat.mul_le_mono_r; lia).
            pose proof (Nat.mul_div_le (length p) bs ltac:(lia)).
            rewrite (Nat.mul_comm bs) in H. fold n in H. cbn [Nat.mul] in Hd. lia. }
          lia.
      + intros i Hi. specialize (Hl (S i) ltac:(lia)). cbn [nth_error] in Hl.
        rewrite Nat.add_succ_r in Hl. exact Hl. }
  rewrite (G 0 cs).
  - change (0 * bs) with 0. rewrite skipn_O. unfold bytes in *. rewrite Hlen. lia.
  - exact Hlen.
  - intros i Hi. cbn [Nat.add]. apply Hnth. unfold bytes in *. lia.
Qed.

(** ** The whole-file functions on well-behaved devices *)

Lemma crypt_failed_enc : forall E s key nonce a aad bs n b (q : bytes),
  env_ok E -> 0 < bs -> bs <= BLOCK_SIZE -> length aad <= 1000 ->
  stream_ok s key nonce a ->
  crypt_failed E s aad (aead_enc E) bs n b ->
  n * bs + length b <= length q ->
  (N.of_nat n <= counter_max E)%N ->
  (counter_max E < N.of_nat (length q / bs))%N.
Proof.
  intros E s key nonce a aad bs n b q HE Hbs HB Haad (-> & Hk & Hn) Hf Hlen Hcount.
  assert (Htot : forall (last : bool) m, length m <= bs ->
    aead_enc E a key (nonce_at (mkStream a key nonce (N.of_nat n)) last) aad m <> None).
  { intros last m Hm. apply (aead_total _ HE); auto; [|lia].
    unfold nonce_at, le31_nonce. cbn [s_prefix]. rewrite app_length, Hn, le32_length.
    destruct a; reflexivity. }
  unfold crypt_failed in Hf. cbn [s_alg s_key s_prefix s_pos] in Hf. rewrite N.add_0_l in Hf.
  destruct Hf as [(Hb & [Hc|Hc])|(Hb & Hc)].
  - rewrite <- Hc. assert (S n <= length q / bs); [|lia].
    apply Nat.div_le_lower_bound; [lia|]. rewrite (Nat.mul_comm bs). cbn [Nat.mul]. lia.
  - exfalso. eapply Htot; [|exact Hc]. lia.
  - exfalso. eapply Htot; [|exact Hc]. lia.
Qed.

Lemma enc_run_blocks_fit : forall bs (bl : list bytes) x k (r : bytes),
  Forall (fun b => length b = bs) bl -> concat bl ++ x = firstn k r ->
  length bl * bs + length x <= length r.
Proof.
  intros bs bl x k r Hall H. apply (f_equal (@length _)) in H.
  rewrite app_length, (concat_blocks_length bs), firstn_length in H by assumption. lia.
Qed.

Lemma encrypt_file_result : forall E bs key nonce a s aad w,
  env_ok E -> 0 < bs -> bs <= BLOCK_SIZE -> stream_ok s key nonce a -> length aad <= 1000 ->
  d_plan (w_in w) = [] -> d_plan (w_out w) = [] ->
  let p := rest (w_in w) in
  if (N.of_nat (length p / bs) <=? counter_max E)%N then
    exists w' ct, encrypt_file_bs E bs s aad w = (Ok tt, w')
      /\ is_ciphertext E a key nonce aad bs p ct
      /\ wrote (w_out w) (w_out w') ct
      /\ framed w w' /\ d_pos (w_in w') = d_pos (w_in w) + length p
      /\ exists bl last cs, enc_run E aad s bl (Some last) cs
           /\ Forall (fun b => length b = bs) bl /\ length last < bs
           /\ p = concat bl ++ last /\ ct = concat (map c_ct cs)
           /\ w_tr w' = w_tr w ++ map Sealed cs
  else exists w', encrypt_file_bs E bs s aad w = (Err SCrypt, w').
Proof.
  intros E bs key nonce a s aad w HE Hbs HB Hs Haad Hi Ho p.
  destruct (encrypt_file_bs E bs s aad w) as [o w'] eqn:He.
  pose proof He as He'. apply encrypt_file_spec in He'; [|assumption].
  destruct He' as (F & bl & last & cs & written & n & G1 & G2 & G3 & G4 & G5 & G6 & G7 & G8).
  change (in_rest w) with p in *.
  assert (Hcnt : (N.of_nat (length bl) <= counter_max E)%N).
  { pose proof (enc_run_counter _ _ _ _ _ _ G1) as D. destruct Hs as (-> & _).
    cbn [s_pos] in D. specialize (D ltac:(lia)). lia. }
  pose proof (counter_31 _ HE) as H31.
  destruct o as [[]|[]| |]; try contradiction; try (exfalso; tauto).
  - destruct G8 as (K1 & (lastb & ->) & K3 & K4). cbn [opt_bytes] in *.
    rewrite (K4 (no_short_nil _ Hi)) in K3.
    specialize (G3 lastb eq_refl). specialize (K4 (no_short_nil _ Hi)).
    destruct (enc_run_is_ciphertext E aad s key nonce a bs bl lastb cs) as (R1 & R2 & R3 & R4); auto.
    rewrite K4 in R1, R2.
    destruct (N.leb_spec (N.of_nat (length p / bs)) (counter_max E)) as [_|Hlt]; [|lia].
    exists w', written. split; [reflexivity|]. subst written.
    split; [exact R1|]. split; [exact G5|]. split; [exact F|]. split; [exact K3|].
    exists bl, lastb, cs. parts; auto.
  - destruct G8 as (K1 & K2 & b & k & K3 & K4 & K5).
    assert (Hlt : (counter_max E < N.of_nat (length p / bs))%N).
    { eapply crypt_failed_enc; eauto. eapply enc_run_blocks_fit; eauto. }
    destruct (N.leb_spec (N.of_nat (length p / bs)) (counter_max E)); [lia|].
    eauto.
Qed.

(** C09/C10 *)
Lemma decrypt_honest : forall E bs key nonce a s aad p ct,
  env_ok E -> 0 < bs -> stream_ok s key nonce a ->
  forall bl last cs, enc_run E aad s bl (Some last) cs ->
  Forall (fun b => length b = bs) bl -> length last < bs ->
  p = concat bl ++ last -> ct = concat (map c_ct cs) ->
  forall w, d_plan (w_in w) = [] -> d_plan (w_out w) = [] -> rest (w_in w) = ct ->
  exists w', decrypt_file_bs E bs s aad w = (Ok tt, w')
    /\ wrote (w_out w) (w_out w') p /\ framed w w'
    /\ w_tr w' = w_tr w ++ map Opened cs.
Proof.
  intros E bs key nonce a s aad p ct HE Hbs Hs bl last cs Hr Hall Hlast Hp Hct w Hi Ho Hin.
  destruct (decrypt_of_enc_run E bs aad HE s bl (Some last) cs Hr last eq_refl Hall Hlast
              (S (length (d_data (w_in w)))) w) as (w1 & R1 & R2 & R3 & R4); auto.
  - assert (length cs <= length (concat (map c_ct cs))).
    { rewrite (enc_run_ct_length _ _ _ _ _ _ HE Hr). lia. }
    rewrite <- Hct, <- Hin in H. unfold rest in H. rewrite skipn_length in H. lia.
  - change (in_rest w) with (rest (w_in w)). congruence.
  - unfold decrypt_file_bs. erewrite bind_ok by exact R1.
    unfold map_err, on_out, zoom. destruct R2 as (F1 & F2 & F3 & F4 & F5 & F6).
    rewrite dev_flush_ok by auto.
    eexists. split; [reflexivity|]. cbn [w_out w_in w_hdr w_rng w_tr]. subst p.
    split; [exact R3|]. split; [|exact R4]. unfold framed; cbn [w_out w_in w_hdr w_rng]. auto 10.
Qed.

Lemma stream_round_trip : forall E key nonce a s aad w,
  env_ok E -> enc_stream_initialize key nonce a = Ok s -> length aad <= 1000 ->
  d_plan (w_in w) = [] -> d_plan (w_out w) = [] ->
  let p := rest (w_in w) in
  (N.of_nat (length p / BLOCK_SIZE) <= counter_max E)%N ->
  exists w' ct,
    encrypt_file E s aad w = (Ok tt, w')
    /\ wrote (w_out w) (w_out w') ct
    /\ is_ciphertext E a key nonce aad BLOCK_SIZE p ct
    /\ dec_stream_initialize key nonce a = Ok s
    /\ forall v, d_plan (w_in v) = [] -> d_plan (w_out v) = [] -> rest (w_in v) = ct ->
         exists v', decrypt_file E s aad v = (Ok tt, v') /\ wrote (w_out v) (w_out v') p.
Proof.
  intros E key nonce a s aad w HE Hinit Haad Hi Ho p Hcnt.
  pose proof (enc_init_ok _ _ _ _ Hinit) as Hs.
  pose proof (encrypt_file_result E BLOCK_SIZE key nonce a s aad w HE BLOCK_SIZE_pos
                (le_n _) Hs Haad Hi Ho) as R.
  cbv zeta in R. fold p in R.
  destruct (N.leb_spec (N.of_nat (length p / BLOCK_SIZE)) (counter_max E)); [|lia].
  destruct R as (w' & ct & R1 & R2 & R3 & R4 & R5 & bl & last & cs & Q1 & Q2 & Q3 & Q4 & Q5 & Q6).
  exists w', ct. split; [exact R1|]. split; [exact R3|]. split; [exact R2|]. split.
  - destruct Hs as (-> & Hk & Hn). now apply dec_init_complete.
  - intros v Hvi Hvo Hv.
    destruct (decrypt_honest E BLOCK_SIZE key nonce a s aad p ct HE BLOCK_SIZE_pos Hs
                bl last cs Q1 Q2 Q3 Q4 Q5 v Hvi Hvo Hv) as (v' & V1 & V2 & _).
    exists v'. auto.
Qed.

Lemma ciphertext_length : forall E key nonce a s aad w w',
  env_ok E -> enc_stream_initialize key nonce a = Ok s ->
  d_plan (w_in w) = [] ->
  encrypt_file E s aad w = (Ok tt, w') ->
  exists ct, wrote (w_out w) (w_out w') ct
    /\ length ct = length (rest (w_in w)) + 16 * (length (rest (w_in w)) / BLOCK_SIZE + 1).
Proof.
  intros E key nonce a s aad w w' HE Hinit Hi He.
  pose proof (enc_init_ok _ _ _ _ Hinit) as Hs.
  unfold encrypt_file in He. apply encrypt_file_spec in He; [|exact BLOCK_SIZE_pos].
  destruct He as (F & bl & last & cs & written & n & G1 & G2 & G3 & G4 & G5 & G6 & G7 & K1 & (lb & ->) & K3 & K4).
  exists written. split; [exact G5|]. subst written.
  specialize (K4 (no_short_nil _ Hi)). cbn [opt_bytes] in K4.
  destruct (enc_run_is_ciphertext E aad s key nonce a BLOCK_SIZE bl lb cs) as (R1 & _); auto.
  { exact BLOCK_SIZE_pos. } { apply counter_31; auto. }
  change (rest (w_in w)) with (in_rest w). rewrite <- K4.
  eapply is_ciphertext_length; eauto. exact BLOCK_SIZE_pos.
Qed.

(** ** C11 *)

Lemma sealed_map : forall cs, sealed (map Sealed cs) = cs /\ opened (map Sealed cs) = [].
Proof. induction cs as [|c cs [IH1 IH2]]; split; auto. cbn. apply (f_equal (cons c)). exact IH1. Qed.

Lemma opened_map : forall cs, opened (map Opened cs) = cs /\ sealed (map Opened cs) = [].
Proof. induction cs as [|c cs [IH1 IH2]]; split; auto. cbn. apply (f_equal (cons c)). exact IH1. Qed.

Lemma nonces_unique : forall E key nonce a s aad w o w',
  env_ok E -> enc_stream_initialize key nonce a = Ok s -> w_tr w = [] ->
  encrypt_file E s aad w = (o, w') ->
  let used := map c_nonce (sealed (w_tr w')) in
  NoDup used
  /\ Forall (fun n => length n = get_nonce_len a MemoryMode) used
  /\ Forall (fun c => c_key c = key /\ c_alg c = a /\ c_aad c = aad) (sealed (w_tr w'))
  /\ (exists n, (N.of_nat n <= counter_max E)%N
        /\ prefix_of used (stream_nonces nonce n)
        /\ (o = Ok tt -> used = stream_nonces nonce n))
  /\ (forall nonce' n', nonce' <> nonce -> length nonce' = length nonce ->
        (N.of_nat n' <= counter_max E)%N ->
        forall x, In x used -> ~ In x (stream_nonces nonce' n')).
Proof.
  intros E key nonce a s aad w o w' HE Hinit Htr He used.
  pose proof (enc_init_ok _ _ _ _ Hinit) as Hs.
  unfold encrypt_file in He. apply encrypt_file_spec in He; [|exact BLOCK_SIZE_pos].
  destruct He as (F & bl & last & cs & written & n & G1 & G2 & G3 & G4 & G5 & G6 & G7 & G8).
  pose proof (counter_31 _ HE) as H31.
  destruct Hs as (-> & Hk & Hn).
  assert (Hcnt : (N.of_nat (length bl) <= counter_max E)%N).
  { pose proof (enc_run_counter _ _ _ _ _ _ G1) as D.
    cbn [s_pos] in D. specialize (D ltac:(lia)). lia. }
  pose proof (enc_run_calls _ _ _ _ _ _ G1) as (A & B & C).
  rewrite Htr in G4. cbn [app] in G4.
  assert (Hsealed : sealed (w_tr w') = cs) by (rewrite G4; apply sealed_map).
  assert (HB : used = map (fun i => ctr_nonce nonce i false) (seq 0 (length bl))
                ++ match last with Some _ => [ctr_nonce nonce (length bl) true] | None => [] end).
  { unfold used. rewrite Hsealed, B. apply f_equal2.
    - apply map_ext_in. intros i Hi. apply in_seq in Hi.
      rewrite nonce_at_ctr; [reflexivity|reflexivity|lia].
    - destruct last; [|reflexivity]. rewrite nonce_at_ctr; [reflexivity|reflexivity|lia]. }
  assert (HP : prefix_of used (stream_nonces nonce (length bl))).
  { rewrite HB. unfold stream_nonces. destruct last; [apply prefix_refl|].
    rewrite app_nil_r. eexists; reflexivity. }
  assert (Hin : forall p m x, In x (stream_nonces p m) -> exists i b, i <= m /\ x = ctr_nonce p i b).
  { intros p m x Hx. unfold stream_nonces in Hx. apply in_app_or in Hx as [Hx|[<-|[]]]; [|eauto].
    apply in_map_iff in Hx as (i & <- & Hi). apply in_seq in Hi. exists i, false. split; [lia|auto]. }
  assert (HI : forall x, In x used -> exists i b, i <= length bl /\ x = ctr_nonce nonce i b).
  { intros x Hx. apply Hin. destruct HP as (t & ->). apply in_or_app. now left. }
  split; [|split; [|split; [|split]]].
  - eapply prefix_nodup; [exact HP|]. apply stream_nonces_nodup. lia.
  - rewrite Forall_forall. intros x Hx. destruct (HI x Hx) as (i & b & _ & ->).
    now apply nonce_total_length.
  - rewrite Hsealed. eapply Forall_impl; [|exact C]. cbn. intros c (C1 & C2 & C3 & _). auto.
  - exists (length bl). split; [exact Hcnt|]. split; [exact HP|].
    intros ->. destruct G8 as (_ & (lb & ->) & _). rewrite HB. reflexivity.
  - intros nonce' n' Hne Hl Hn' x Hx Hx'.
    destruct (HI x Hx) as (i & b & Hi & ->). destruct (Hin _ _ _ Hx') as (j & b' & Hj & Heq).
    apply ctr_nonce_inj in Heq as (Heq & _); [congruence|symmetry; exact Hl|lia|lia].
Qed.

(** ** Integrity *)

Definition call_eq_dec : forall a b : call, {a = b} + {a <> b}.
Proof.
  intros [a1 a2 a3 a4 a5 a6] [b1 b2 b3 b4 b5 b6].
  destruct (bytes_eq_dec a2 b2); [|right; congruence].
  destruct (bytes_eq_dec a3 b3); [|right; congruence].
  destruct (bytes_eq_dec a4 b4); [|right; congruence].
  destruct (bytes_eq_dec a5 b5); [|right; congruence].
  destruct (bytes_eq_dec a6 b6); [|right; congruence].
  assert (D : {a1 = b1} + {a1 <> b1}) by decide equality.
  destruct D; [left|right]; congruence.
Qed.

(** Either every accepted call was produced honestly, or one is a forgery. *)
Lemma honest_or_forgery : forall E tr cs,
  env_ok E ->
  Forall (fun c => aead_enc E (c_alg c) (c_key c) (c_nonce c) (c_aad c) (c_msg c) = Some (c_ct c))
         (sealed tr) ->
  Forall (fun c => aead_dec E (c_alg c) (c_key c) (c_nonce c) (c_aad c) (c_ct c) = Some (c_msg c)) cs ->
  (forall c, In c cs -> In c (sealed tr)) \/ (exists c, In c cs /\ forgery E tr c).
Proof.
  intros E tr cs HE Hs Hd. induction Hd as [|c cs Hc Hd IH].
  - left. intros c [].
  - destruct IH as [IH|(c' & H1 & H2)]; [|right; exists c'; split; [now right|exact H2]].
    destruct (in_dec call_eq_dec c (sealed tr)) as [Hin|Hout].
    + left. intros c' [<-|Hc']; auto.
    + right. exists c. split; [now left|]. split; [exact Hc|].
      intros m Hm. rewrite Forall_forall in Hs. specialize (Hs _ Hm). cbn in Hs.
      apply (aead_correct _ HE) in Hs. rewrite Hc in Hs. inversion Hs as [Hm']. rewrite <- Hm' in Hm.
      destruct c; cbn in *. contradiction.
Qed.

Lemma nth_error_all : forall {A} (l l' : list A),
  (forall i, nth_error l i = nth_error l' i) -> l = l'.
Proof.
  induction l as [|x l IH]; intros [|y l'] H; auto.
  - specialize (H 0). discriminate.
  - specialize (H 0). discriminate.
  - pose proof (H 0) as H0. cbn in H0. inversion H0; subst. f_equal. apply IH.
    intros i. exact (H (S i)).
Qed.

(** A decryption run whose accepted calls all come from the honest encryption
    run is a first part of that run. *)
Lemma dec_run_follows : forall E aad aad' s bl l cs bl' l' cs',
  env_ok E -> s_pos s = 0%N ->
  enc_run E aad s bl l cs -> dec_run E aad' s bl' l' cs' ->
  (forall c, In c cs' -> In c cs) ->
  cs' = firstn (length cs') cs
  /\ (forall x, l' = Some x -> cs' = cs)
  /\ (cs' <> [] -> aad' = aad).
Proof.
  intros E aad aad' s bl l cs bl' l' cs' HE Hpos Hr Hd Hsub.
  pose proof (counter_31 _ HE) as H31.
  pose proof (enc_run_calls _ _ _ _ _ _ Hr) as (A & B & C).
  pose proof (dec_run_calls _ _ _ _ _ _ Hd) as (A' & B' & C').
  pose proof (enc_run_counter _ _ _ _ _ _ Hr) as D. rewrite Hpos in D. specialize (D ltac:(lia)).
  pose proof (dec_run_counter _ _ _ _ _ _ Hd) as D'. rewrite Hpos in D'. specialize (D' ltac:(lia)).
  pose proof (run_lengths _ _ _ _ A) as Len. pose proof (run_lengths _ _ _ _ A') as Len'.
  (* the i-th nonce of a run *)
  assert (NE : forall i c, nth_error cs i = Some c ->
            i <= length bl /\ c_nonce c = ctr_nonce (s_prefix s) i (i =? length bl)).
  { intros i c Hc. assert (Hi : i < length cs) by (apply nth_error_Some; congruence).
    assert (Hle : i <= length bl) by (destruct l; lia). split; [exact Hle|].
    apply (map_nth_error c_nonce) in Hc. rewrite B in Hc.
    destruct l as [x|].
    - rewrite run_nonces in Hc by assumption.
      destruct (Nat.eqb_spec i (length bl)); inversion Hc as [Hc']; subst;
        apply nonce_at_ctr; auto; lia.
    - rewrite app_nil_r in Hc.
      assert (i < length bl) by lia.
      rewrite (map_nth_error _ i (seq 0 (length bl)) (d := i)) in Hc
        by (rewrite seq_nth_error by lia; reflexivity).
      inversion Hc as [Hc']. destruct (Nat.eqb_spec i (length bl)); [lia|].
      apply nonce_at_ctr; auto; lia. }
  assert (ND : forall i c, nth_error cs' i = Some c ->
            i <= length bl' /\ c_nonce c = ctr_nonce (s_prefix s) i (i =? length bl')).
  { intros i c Hc. assert (Hi : i < length cs') by (apply nth_error_Some; congruence).
    assert (Hle : i <= length bl') by (destruct l'; lia). split; [exact Hle|].
    apply (map_nth_error c_nonce) in Hc. rewrite B' in Hc.
    destruct l' as [x|].
    - rewrite run_nonces in Hc by assumption.
      destruct (Nat.eqb_spec i (length bl')); inversion Hc as [Hc']; subst;
        apply nonce_at_ctr; auto; lia.
    - rewrite app_nil_r in Hc.
      assert (i < length bl') by lia.
      rewrite (map_nth_error _ i (seq 0 (length bl')) (d := i)) in Hc
        by (rewrite seq_nth_error by lia; reflexivity).
      inversion Hc as [Hc']. destruct (Nat.eqb_spec i (length bl')); [lia|].
      apply nonce_at_ctr; auto; lia. }
  assert (Same : forall i c, nth_error cs' i = Some c -> nth_error cs i = Some c
            /\ (i =? length bl') = (i =? length bl)).
  { intros i c Hc. destruct (ND i c Hc) as (Hi & Hn).
    pose proof (Hsub c (nth_error_In _ _ Hc)) as Hin. apply In_nth_error in Hin as (j & Hj).
    destruct (NE j c Hj) as (Hj' & Hn'). rewrite Hn in Hn'.
    apply ctr_nonce_inj in Hn' as (_ & Hij & Hb); auto; try lia. subst j. auto. }
  assert (P1 : cs' = firstn (length cs') cs).
  { apply nth_error_all. intros i. destruct (nth_error cs' i) as [c|] eqn:Hc.
    - assert (Hi : i < length cs') by (apply nth_error_Some; congruence).
      rewrite nth_error_firstn'. all: try assumption.
      symmetry. now apply Same.
    - symmetry. apply nth_error_None. rewrite firstn_length.
      apply nth_error_None in Hc. lia. }
  split; [exact P1|]. split.
  - intros x ->.
    assert (Hlast : exists c, nth_error cs' (length bl') = Some c).
    { destruct (nth_error cs' (length bl')) eqn:Hc; eauto. apply nth_error_None in Hc. lia. }
    destruct Hlast as (c & Hc). destruct (Same _ _ Hc) as (Hs1 & Hs2).
    rewrite Nat.eqb_refl in Hs2. symmetry in Hs2. apply Nat.eqb_eq in Hs2.
    rewrite P1. apply firstn_all2. destruct l; lia.
  - intros Hne. destruct cs' as [|c cs']; [congruence|].
    rewrite Forall_forall in C, C'.
    destruct (C' c (or_introl eq_refl)) as (_ & _ & C1 & _).
    destruct (C c (Hsub c (or_introl eq_refl))) as (_ & _ & C2 & _). congruence.
Qed.

Lemma firstn_blocks : forall bs (bl : list bytes) last k,
  Forall (fun b => length b = bs) bl ->
  concat (firstn k (bl ++ [last]))
  = if k <=? length bl then firstn (k * bs) (concat bl ++ last) else concat bl ++ last.
Proof.
  intros bs bl last k Hall. revert k.
  induction Hall as [|b bl Hb Hall IH]; intros [|k]; try reflexivity.
  - cbn. rewrite firstn_nil. cbn. now rewrite app_nil_r.
  - cbn [app firstn concat length Nat.leb]. rewrite IH.
    change (@length (list byte) bl) with (@length bytes bl). destruct (k <=? @length bytes bl).
    + cbn [Nat.mul]. rewrite <- (app_assoc b).
      rewrite (firstn_app (bs + k * bs) b), (firstn_all2 b) by lia. f_equal. f_equal. lia.
    + now rewrite app_assoc.
Qed.

Lemma map_firstn : forall {A B} (f : A -> B) n l, map f (firstn n l) = firstn n (map f l).
Proof. intros A B f n; induction n; intros [|x l]; cbn; congruence. Qed.

Lemma prefix_concat_firstn : forall (l : list bytes) k, prefix_of (concat (firstn k l)) (concat l).
Proof.
  intros l k. exists (concat (skipn k l)). rewrite <- concat_app. now rewrite firstn_skipn.
Qed.

Lemma consumed_eq : forall d d' l n, d_pos d' = d_pos d + length l -> l = firstn n (rest d) ->
  consumed d d' = l.
Proof.
  intros d d' l n Hp Hl. unfold consumed. rewrite Hp.
  replace (d_pos d + length l - d_pos d) with (length l) by lia.
  rewrite Hl at 1. rewrite firstn_length. rewrite Hl at 1.
  destruct (Nat.le_ge_cases n (length (rest d))).
  - now rewrite Nat.min_l by assumption.
  - rewrite Nat.min_r, firstn_all, firstn_all2 by assumption. reflexivity.
Qed.

(** ** C12, C13: what a decryption can do after an honest encryption *)
Lemma stream_integrity_bs : forall E bs key nonce a s aad w w',
  env_ok E -> 0 < bs -> stream_ok s key nonce a -> w_tr w = [] ->
  encrypt_file_bs E bs s aad w = (Ok tt, w') ->
  exists ct,
  wrote (w_out w) (w_out w') ct /\
  let p := consumed (w_in w) (w_in w') in
  is_ciphertext E a key nonce aad bs p ct /\
  forall aad' v o v',
  w_tr v = [] -> decrypt_file_bs E bs s aad' v = (o, v') ->
  exists written, wrote (w_out v) (w_out v') written /\
  ((exists c, In c (opened (w_tr v')) /\ forgery E (w_tr w') c)
   \/ (prefix_of written p
       /\ (written <> [] -> aad' = aad)
       /\ (o <> Err SWrite -> written = p \/ exists n, written = firstn (n * bs) p)
       /\ (o = Ok tt ->
             written = p /\ aad' = aad
             /\ consumed (w_in v) (w_in v') = ct
             /\ (no_short (d_plan (w_in v)) -> rest (w_in v) = ct)))).
Proof.
  intros E bs key nonce a s aad w w' HE Hbs Hs Htr He.
  apply encrypt_file_spec in He; [|exact Hbs].
  destruct He as (F & bl & last & cs & ct & n & G1 & G2 & G3 & G4 & G5 & G6 & G7 & K1 & (lb & ->) & K3 & K4).
  cbn [opt_bytes] in *. specialize (G3 lb eq_refl).
  assert (Hp : consumed (w_in w) (w_in w') = concat bl ++ lb).
  { eapply consumed_eq; [exact K3|exact G7]. }
  exists ct. split; [exact G5|]. cbv zeta. rewrite Hp. clear Hp. set (p := concat bl ++ lb) in *.
  destruct (enc_run_is_ciphertext E aad s key nonce a bs bl lb cs) as (R1 & R2 & R3 & R4);
    auto using counter_31.
  split; [rewrite K1; exact R1|].
  intros aad' v o v' Htr' Hd.
  apply decrypt_file_spec in Hd.
  destruct Hd as (F' & bl' & last' & cs' & written & n' & D1 & D2 & D3 & D4 & D5 & D6 & D7 & D8).
  exists written. split; [exact D5|].
  rewrite Htr in G4. rewrite Htr' in D4. cbn [app] in G4, D4.
  assert (HS : sealed (w_tr w') = cs) by (rewrite G4; apply sealed_map).
  assert (HO : opened (w_tr v') = cs') by (rewrite D4; apply opened_map).
  pose proof (enc_run_calls _ _ _ _ _ _ G1) as (A & B & C).
  pose proof (dec_run_calls _ _ _ _ _ _ D1) as (A' & B' & C').
  destruct (honest_or_forgery E (w_tr w') cs' HE) as [Hh|Hf].
  { rewrite HS. eapply Forall_impl; [|exact C]. cbn. tauto. }
  { eapply Forall_impl; [|exact C']. cbn. tauto. }
  2:{ left. rewrite HO. exact Hf. }
  right. rewrite HS in Hh.
  destruct (dec_run_follows E aad aad' s bl (Some lb) cs bl' last' cs') as (P1 & P2 & P3); auto.
  { destruct Hs as (-> & _). reflexivity. }
  assert (Hmsg : concat (map c_msg cs') = p \/ exists k, concat (map c_msg cs') = firstn (k * bs) p).
  { rewrite P1, map_firstn, A, (firstn_blocks bs) by assumption. fold p.
    destruct (_ <=? _); eauto. }
  assert (Hpre : prefix_of (concat (map c_msg cs')) p).
  { destruct Hmsg as [->|(k & ->)]; [apply prefix_refl|apply prefix_firstn]. }
  split; [eapply prefix_trans; eauto|].
  split.
  { intros Hne. apply P3. intros ->. destruct D6 as (t & D6). cbn in D6.
    symmetry in D6. apply app_eq_nil in D6. tauto. }
  split.
  { intros Hno.
    assert (W : written = concat (map c_msg cs')).
    { destruct o as [u|[]| |]; try contradiction; try tauto. }
    rewrite W. exact Hmsg. }
  intros ->. destruct D8 as (W & (lb' & ->) & D8 & D9). cbn [opt_bytes] in *.
  rewrite (P2 lb' eq_refl) in *.
  assert (Hcs : concat (map c_msg cs) = p) by (rewrite A, concat_app; cbn; now rewrite app_nil_r).
  assert (Hct : concat bl' ++ lb' = ct).
  { rewrite K1, A', concat_app. cbn. now rewrite app_nil_r. }
  split; [congruence|]. split.
  { apply P3. intros ->. destruct bl; discriminate. }
  split.
  - rewrite <- Hct. eapply consumed_eq; [exact D8|exact D7].
  - intros Hns. change (rest (w_in v)) with (in_rest v). rewrite <- (D9 Hns). exact Hct.
Qed.

(** ** C16: any device behaviour *)
Lemma complete_run : forall E aad s bl cs,
  env_ok E -> length aad <= 1000 -> length (s_key s) = 32 ->
  length (s_prefix s) = get_nonce_len (s_alg s) StreamMode ->
  enc_run E aad s bl None cs ->
  exists c, enc_run E aad s bl (Some []) (cs ++ [c]).
Proof.
  intros E aad s bl cs HE Haad Hk Hn H. remember None as o eqn:Ho.
  induction H as [s|s b ct Hs|s b bl l cs ct Hp Hs Hr IH]; [| discriminate |].
  - destruct (aead_enc E (s_alg s) (s_key s) (nonce_at s true) aad []) as [ct|] eqn:Hct.
    + eexists. cbn [app]. econstructor. exact Hct.
    + exfalso. eapply (aead_total _ HE); [..|exact Hct]; auto.
      * unfold nonce_at, le31_nonce. rewrite app_length, Hn, le32_length. destruct (s_alg s); reflexivity.
      * cbn. lia.
  - destruct IH as (c & IH); auto. exists c. cbn [app]. now econstructor.
Qed.

Lemma encrypt_any : forall E bs key nonce a s aad w o w',
  env_ok E -> 0 < bs -> stream_ok s key nonce a -> length aad <= 1000 ->
  encrypt_file_bs E bs s aad w = (o, w') ->
  exists written, wrote (w_out w) (w_out w') written
  /\ match o with
     | Ok _ => is_ciphertext E a key nonce aad bs (consumed (w_in w) (w_in w')) written
               /\ (no_short (d_plan (w_in w)) -> consumed (w_in w) (w_in w') = rest (w_in w))
     | Err e => (exists q ct, prefix_of q (rest (w_in w))
                   /\ is_ciphertext E a key nonce aad bs q ct /\ prefix_of written ct)
                /\ (e = SRead -> d_plan (w_in w) <> [])
                /\ (e = SWrite \/ e = SFlush -> d_plan (w_out w) <> [])
     | _ => False
     end.
Proof.
  intros E bs key nonce a s aad w o w' HE Hbs Hs Haad He.
  apply encrypt_file_spec in He; [|exact Hbs].
  destruct He as (F & bl & last & cs & written & n & G1 & G2 & G3 & G4 & G5 & G6 & G7 & G8).
  exists written. split; [exact G5|].
  assert (Hex : exists q ct, prefix_of q (rest (w_in w))
            /\ is_ciphertext E a key nonce aad bs q ct /\ prefix_of written ct).
  { exists (concat bl ++ opt_bytes last).
    destruct last as [lb|]; cbn [opt_bytes] in *.
    - exists (concat (map c_ct cs)). split; [rewrite G7; apply prefix_firstn|]. split; [|exact G6].
      eapply enc_run_is_ciphertext; eauto. now apply counter_31.
    - destruct (complete_run E aad s bl cs) as (c & Hc); auto.
      { destruct Hs as (-> & Hk & _). exact Hk. }
      { destruct Hs as (-> & _ & Hn). exact Hn. }
      exists (concat (map c_ct (cs ++ [c]))). split; [rewrite G7; apply prefix_firstn|]. split.
      + eapply enc_run_is_ciphertext; eauto. now apply counter_31.
      + eapply prefix_trans; [exact G6|]. rewrite map_app, concat_app. eexists; reflexivity. }
  destruct o as [u|e| |]; try contradiction.
  - destruct G8 as (K1 & (lb & ->) & K3 & K4). cbn [opt_bytes] in *.
    assert (Hc : consumed (w_in w) (w_in w') = concat bl ++ lb)
      by (eapply consumed_eq; [exact K3|exact G7]).
    rewrite Hc. split; [|exact K4]. rewrite K1.
    eapply enc_run_is_ciphertext; eauto. now apply counter_31.
  - split; [exact Hex|]. split.
    + intros ->. tauto.
    + intros [-> | ->]; tauto.
Qed.

Lemma decrypt_any : forall E bs key nonce a s aad w o w',
  env_ok E -> stream_ok s key nonce a ->
  decrypt_file_bs E bs s aad w = (o, w') ->
  exists written, wrote (w_out w) (w_out w') written
  /\ match o with
     | Ok _ => is_plaintext E a key nonce aad bs (consumed (w_in w) (w_in w')) written
               /\ (no_short (d_plan (w_in w)) -> consumed (w_in w) (w_in w') = rest (w_in w))
     | Err e => (exists q ms, prefix_of q (rest (w_in w))
                   /\ opened_blocks E a key nonce aad bs q ms /\ prefix_of written (concat ms))
                /\ (e = SRead -> d_plan (w_in w) <> [])
                /\ (e = SWrite \/ e = SFlush -> d_plan (w_out w) <> [])
     | _ => False
     end.
Proof.
  intros E bs key nonce a s aad w o w' HE Hs He.
  apply decrypt_file_spec in He.
  destruct He as (F & bl & last & cs & written & n & G1 & G2 & G3 & G4 & G5 & G6 & G7 & G8).
  exists written. split; [exact G5|].
  pose proof (counter_31 _ HE) as H31.
  assert (Hex : exists q ms, prefix_of q (rest (w_in w))
            /\ opened_blocks E a key nonce aad bs q ms /\ prefix_of written (concat ms)).
  { exists (concat bl ++ opt_bytes last), (map c_msg cs).
    split; [rewrite G7; apply prefix_firstn|]. split; [|exact G6].
    destruct Hs as (-> & Hk & Hn).
    pose proof (dec_run_calls _ _ _ _ _ _ G1) as (A & B & C).
    pose proof (dec_run_counter _ _ _ _ _ _ G1) as D. cbn [s_pos s_alg s_key s_prefix] in *.
    specialize (D ltac:(lia)). rewrite N.add_0_l in D.
    pose proof (run_lengths _ _ _ _ A) as L.
    intros i m Hm. apply nth_error_map_inv in Hm as (c & Hc & <-).
    assert (Hi : i < length cs) by (apply nth_error_Some; congruence).
    rewrite Forall_forall in C. destruct (C c (nth_error_In _ _ Hc)) as (C1 & C2 & C3 & C4).
    pose proof (map_nth_error c_ct _ _ Hc) as Hct. rewrite A in Hct.
    pose proof (map_nth_error c_nonce _ _ Hc) as Hnn. rewrite B in Hnn.
    assert (Hblk : block (bs + 16) i (concat bl ++ opt_bytes last) = c_ct c).
    { destruct last as [lb|]; cbn [opt_bytes] in *.
      - rewrite (block_nth (bs + 16)) in Hct; [congruence|lia|assumption|auto|lia].
      - rewrite app_nil_r in Hct. 
        assert (Hx : nth_error (bl ++ [[]]) i = Some (c_ct c))
          by (rewrite nth_error_app1; [exact Hct|unfold bytes in *; lia]).
        rewrite (block_nth (bs + 16)) in Hx; [congruence|lia|assumption|cbn;lia|lia]. }
    cbv zeta. rewrite Hblk.
    assert (Hnonce : c_nonce c = ctr_nonce nonce i (length (c_ct c) <? bs + 16)).
    { destruct (Nat.eq_dec i (length bl)) as [->|Hne].
      - destruct last as [lb|]; [|unfold bytes in *; lia].
        rewrite run_nonces in Hnn by lia. rewrite Nat.eqb_refl in Hnn.
        rewrite nth_error_app2, Nat.sub_diag in Hct by lia. cbn [nth_error] in Hct.
        assert (Hlb : lb = c_ct c) by congruence. rewrite <- Hlb.
        specialize (G3 lb eq_refl). destruct (Nat.ltb_spec (length lb) (bs + 16)); [|lia].
        rewrite nonce_at_ctr in Hnn; [|reflexivity|lia]. cbn [s_prefix] in Hnn. congruence.
      - assert (Hlt : i < length bl) by (destruct last; unfold bytes in *; lia).
        rewrite nth_error_app1 in Hct by exact Hlt.
        rewrite Forall_forall in G2. apply nth_error_In in Hct as Hin.
        rewrite (G2 _ Hin). rewrite Nat.ltb_irrefl.
        rewrite nth_error_app1 in Hnn by (rewrite map_length, seq_length; exact Hlt).
        rewrite (map_nth_error _ i (seq 0 (length bl)) (d := i)) in Hnn
          by (rewrite seq_nth_error by exact Hlt; reflexivity).
        rewrite nonce_at_ctr in Hnn; [|reflexivity|lia]. cbn [s_prefix] in Hnn. congruence. }
    rewrite <- Hnonce, <- C1, <- C2, <- C3. exact C4. }
  destruct o as [u|e| |]; try contradiction.
  - destruct G8 as (K1 & (lb & ->) & K3 & K4). cbn [opt_bytes] in *.
    assert (Hc : consumed (w_in w) (w_in w') = concat bl ++ lb)
      by (eapply consumed_eq; [exact K3|exact G7]).
    rewrite Hc. split; [|exact K4]. rewrite K1.
    eapply dec_run_is_plaintext; eauto.
  - split; [exact Hex|]. split.
    + intros ->. tauto.
    + intros [-> | ->]; tauto.
Qed.

Lemma stream_integrity_holds : forall E key nonce a s aad w w',
  env_ok E -> enc_stream_initialize key nonce a = Ok s -> w_tr w = [] ->
  encrypt_file E s aad w = (Ok tt, w') ->
  exists ct,
  wrote (w_out w) (w_out w') ct /\
  let p := consumed (w_in w) (w_in w') in
  is_ciphertext E a key nonce aad BLOCK_SIZE p ct /\
  forall aad' v v',
  w_tr v = [] -> decrypt_file E s aad' v = (Ok tt, v') ->
  (exists c, In c (opened (w_tr v')) /\ forgery E (w_tr w') c)
  \/ (wrote (w_out v) (w_out v') p /\ aad' = aad
      /\ consumed (w_in v) (w_in v') = ct
      /\ (no_short (d_plan (w_in v)) -> rest (w_in v) = ct)).
Proof.
  intros E key nonce a s aad w w' HE Hi Ht He.
  destruct (stream_integrity_bs E BLOCK_SIZE key nonce a s aad w w' HE BLOCK_SIZE_pos
              (enc_init_ok _ _ _ _ Hi) Ht He) as (ct & H1 & H2 & H3).
  exists ct. split; [exact H1|]. split; [exact H2|]. intros aad' v v' Hv Hd.
  destruct (H3 aad' v (Ok tt) v' Hv Hd) as (wr & K1 & [K2|(_ & _ & _ & K2)]); [auto|].
  right. destruct (K2 eq_refl) as (-> & -> & K3 & K4). auto.
Qed.

Lemma only_authentic_output_holds : forall E key nonce a s aad w w',
  env_ok E -> enc_stream_initialize key nonce a = Ok s -> w_tr w = [] ->
  encrypt_file E s aad w = (Ok tt, w') ->
  let p := consumed (w_in w) (w_in w') in
  forall aad' v o v',
  w_tr v = [] -> decrypt_file E s aad' v = (o, v') ->
  exists written, wrote (w_out v) (w_out v') written /\
  ((exists c, In c (opened (w_tr v')) /\ forgery E (w_tr w') c)
   \/ (prefix_of written p
       /\ (written <> [] -> aad' = aad)
       /\ (o <> Err SWrite -> written = p \/ exists n, written = firstn (n * BLOCK_SIZE) p))).
Proof.
  intros E key nonce a s aad w w' HE Hi Ht He p aad' v o v' Hv Hd.
  destruct (stream_integrity_bs E BLOCK_SIZE key nonce a s aad w w' HE BLOCK_SIZE_pos
              (enc_init_ok _ _ _ _ Hi) Ht He) as (ct & H1 & H2 & H3).
  destruct (H3 aad' v o v' Hv Hd) as (wr & K1 & [K2|(K2 & K3 & K4 & _)]); exists wr; auto.
Qed.

Lemma whole_input_partial_holds : forall E key nonce a s aad w w',
  env_ok E -> enc_stream_initialize key nonce a = Ok s -> length aad <= 1000 ->
  encrypt_file E s aad w = (Ok tt, w') ->
  exists ct, wrote (w_out w) (w_out w') ct
  /\ is_ciphertext E a key nonce aad BLOCK_SIZE (consumed (w_in w) (w_in w')) ct
  /\ (no_short (d_plan (w_in w)) -> consumed (w_in w) (w_in w') = rest (w_in w)).
Proof.
  intros E key nonce a s aad w w' HE Hi Ha He.
  destruct (encrypt_any E BLOCK_SIZE key nonce a s aad w (Ok tt) w' HE BLOCK_SIZE_pos
              (enc_init_ok _ _ _ _ Hi) Ha He) as (ct & H1 & H2 & H3). eauto.
Qed.

Lemma counter_never_wraps_holds : forall E key nonce a s aad w,
  env_ok E -> enc_stream_initialize key nonce a = Ok s -> length aad <= 1000 ->
  d_plan (w_in w) = [] -> d_plan (w_out w) = [] ->
  fst (encrypt_file E s aad w)
  = if (N.of_nat (length (rest (w_in w)) / BLOCK_SIZE) <=? counter_max E)%N
    then Ok tt else Err SCrypt.
Proof.
  intros E key nonce a s aad w HE Hi Ha H1 H2.
  pose proof (encrypt_file_result E BLOCK_SIZE key nonce a s aad w HE BLOCK_SIZE_pos (le_n _)
                (enc_init_ok _ _ _ _ Hi) Ha H1 H2) as R. cbv zeta in R.
  unfold encrypt_file. destruct (_ <=? _)%N.
  - destruct R as (w' & ct & R & _). now rewrite R.
  - destruct R as (w' & R). now rewrite R.
Qed.

Lemma io_faults_reported_holds : forall E key nonce a s aad,
  env_ok E -> enc_stream_initialize key nonce a = Ok s -> length aad <= 1000 ->
  (forall w o w', encrypt_file E s aad w = (o, w') ->
     exists written, wrote (w_out w) (w_out w') written
     /\ match o with
        | Ok _ => is_ciphertext E a key nonce aad BLOCK_SIZE
                    (consumed (w_in w) (w_in w')) written
                  /\ (no_short (d_plan (w_in w)) ->
                      consumed (w_in w) (w_in w') = rest (w_in w))
        | Err e => (exists q ct, prefix_of q (rest (w_in w))
                      /\ is_ciphertext E a key nonce aad BLOCK_SIZE q ct
                      /\ prefix_of written ct)
                   /\ (e = SRead -> d_plan (w_in w) <> [])
                   /\ (e = SWrite \/ e = SFlush -> d_plan (w_out w) <> [])
        | _ => False
        end)
  /\ (forall w o w', decrypt_file E s aad w = (o, w') ->
     exists written, wrote (w_out w) (w_out w') written
     /\ match o with
        | Ok _ => is_plaintext E a key nonce aad BLOCK_SIZE
                    (consumed (w_in w) (w_in w')) written
                  /\ (no_short (d_plan (w_in w)) ->
                      consumed (w_in w) (w_in w') = rest (w_in w))
        | Err e => (exists q ms, prefix_of q (rest (w_in w))
                      /\ opened_blocks E a key nonce aad BLOCK_SIZE q ms
                      /\ prefix_of written (concat ms))
                   /\ (e = SRead -> d_plan (w_in w) <> [])
                   /\ (e = SWrite \/ e = SFlush -> d_plan (w_out w) <> [])
        | _ => False
        end).
Proof.
  intros E key nonce a s aad HE Hi Ha. pose proof (enc_init_ok _ _ _ _ Hi) as Hs.
  split; intros w o w' H.
  - exact (encrypt_any E BLOCK_SIZE key nonce a s aad w o w' HE BLOCK_SIZE_pos Hs Ha H).
  - exact (decrypt_any E BLOCK_SIZE key nonce a s aad w o w' HE Hs H).
Qed.

Lemma block_size_number : N.of_nat BLOCK_SIZE = 1048576%N.
Proof. unfold BLOCK_SIZE. apply N2Nat.id. Qed.
Theorem ciphertext_bytes : forall E key nonce a s aad w w',
  env_ok E -> enc_stream_initialize key nonce a = Ok s ->
  d_plan (w_in w) = [] ->
  encrypt_file E s aad w = (Ok tt, w') ->
  exists ct, wrote (w_out w) (w_out w') ct
    /\ let n := N.of_nat (length (rest (w_in w))) in
       N.of_nat (length ct) = (n + 16 * (n / 1048576 + 1))%N.
Proof.
  intros E key nonce a s aad w w' HE HS HP H. destruct (ciphertext_length _ _ _ _ _ _ _ _ HE HS HP H) as (ct & W & L).
  exists ct. split; [exact W|]. cbv zeta. rewrite L, Nat2N.inj_add, Nat2N.inj_mul, Nat2N.inj_add, Nat2N.inj_div, block_size_number.
  reflexivity.
Qed.
