(** The random numbers and encryptions of the library's calls, whatever the outcome. *)
From Coq Require Import List Arith NArith ZArith Lia Bool.
From Verif Require Import Bytes Outcome IO Primitives Crypto Header Stream KeyModel EncDec KeyOps.
From Verif Require Import BytesFacts IOSpec IOFacts StreamSpec StreamFacts StreamProofs FileSpec FileFacts FileProofs.
From Verif Require Import KeySpec WorldFrames FreshSpec FreshFacts.
Import ListNotations.
Local Open Scope nat_scope.

(** Nothing drawn and nothing encrypted. *)
Definition quiet (w w' : world) : Prop := w_rng w' = w_rng w /\ sealed (w_tr w') = sealed (w_tr w).
Lemma quiet_refl : forall w, quiet w w. Proof. split; reflexivity. Qed.
Lemma quiet_trans : forall a b c, quiet a b -> quiet b c -> quiet a c.
Proof. intros a b c [A B] [C D]. split; congruence. Qed.

Definition unsealing (t t' : trace) : Prop := sealed t' = sealed t.

Lemma quiet_in : forall {E A} (m : M dev E A), always quiet (on_in m).
Proof. intros E A m w o w' H. unfold on_in, zoom in H. destruct (m (w_in w)). inversion H. split; reflexivity. Qed.
Lemma quiet_out : forall {E A} (m : M dev E A), always quiet (on_out m).
Proof. intros E A m w o w' H. unfold on_out, zoom in H. destruct (m (w_out w)). inversion H. split; reflexivity. Qed.
Lemma quiet_hdr : forall {E A} (m : M dev E A), always quiet (on_hdr m).
Proof. intros E A m w o w' H. unfold on_hdr, zoom in H. destruct (m (w_hdr w)). inversion H. split; reflexivity. Qed.
Lemma quiet_tr : forall {E A} (m : M trace E A), always unsealing m -> always quiet (on_tr m).
Proof.
  intros E A m Q w o w' H. unfold on_tr, zoom in H. destruct (m (w_tr w)) as [o1 t] eqn:X. inversion H.
  split; [reflexivity|]. exact (Q _ _ _ X).
Qed.

Ltac quiet_step :=
  first [ apply quiet_in | apply quiet_out | apply quiet_hdr
        | apply (always_ret quiet quiet_refl) | apply (always_err quiet quiet_refl)
        | apply (always_lift quiet quiet_refl)
        | apply (always_map_err quiet)
        | apply (always_bind quiet quiet_trans); [|intros ?] ].

Lemma unsealing_opened : forall t c, unsealing t (t ++ [Opened c]).
Proof. intros t c. unfold unsealing, sealed. rewrite flat_map_app. cbn. apply app_nil_r. Qed.
Lemma unsealing_refl : forall t, unsealing t t. Proof. reflexivity. Qed.
Lemma unsealing_trans : forall a b c, unsealing a b -> unsealing b c -> unsealing a c.
Proof. unfold unsealing. congruence. Qed.

Lemma ciphers_decrypt_unsealing : forall E c n ad ct, always unsealing (ciphers_decrypt E c n ad ct).
Proof.
  intros E c n ad ct t o t' H. unfold ciphers_decrypt in H.
  destruct (length n =? _); [destruct (aead_dec _ _ _ _ _ _)|]; inversion H; subst; try reflexivity.
  apply unsealing_opened.
Qed.
Lemma stream_open_unsealing : forall E s l ad ct, always unsealing (stream_open E s l ad ct).
Proof.
  intros E s l ad ct t o t' H. unfold stream_open in H.
  destruct (aead_dec _ _ _ _ _ _); inversion H; subst; [apply unsealing_opened|reflexivity].
Qed.

Lemma panic_always : forall {S E A} (R : S -> S -> Prop), (forall s, R s s) -> always R (@panic S E A).
Proof. intros S E A R RR s o s' H. inversion H. subst. apply RR. Qed.

Lemma search_unsealing : forall E a pw l i, always unsealing (search_keyslots E a pw i l).
Proof.
  intros E a pw l. induction l as [|k l IH]; intros i; cbn [search_keyslots].
  - apply (always_ret unsealing unsealing_refl).
  - apply (always_bind unsealing unsealing_trans).
    { apply (always_map_err unsealing), (always_lift unsealing unsealing_refl). }
    intros key. apply (always_bind unsealing unsealing_trans).
    { apply (always_map_err unsealing), (always_lift unsealing unsealing_refl). }
    intros c t o t' H. destruct (ciphers_decrypt E c (ks_nonce k) [] (ks_enc k) t) as [o1 t1] eqn:X.
    apply ciphers_decrypt_unsealing in X. destruct o1; try (inversion H; subst; exact X).
    eapply unsealing_trans; [exact X|]. eapply IH; eauto.
Qed.

Lemma find_unsealing : forall E l pw a, always unsealing (decrypt_v5_master_key_with_index E l pw a).
Proof.
  intros E l pw a. unfold decrypt_v5_master_key_with_index.
  apply (always_bind unsealing unsealing_trans); [apply search_unsealing|].
  intros r. destruct (bytes_eqb _ _).
  - apply (always_err unsealing unsealing_refl).
  - apply (always_ret unsealing unsealing_refl).
Qed.

Lemma quiet_open_header : always quiet open_header.
Proof.
  unfold open_header. apply (always_bind quiet quiet_trans).
  { apply (always_map_err quiet), quiet_in. }
  intros ha. cbv zeta. destruct (below_v5 _).
  - apply (always_err quiet quiet_refl).
  - apply (always_bind quiet quiet_trans).
    { apply (always_map_err quiet), quiet_in. }
    intros _. destruct (h_keyslots (fst ha)); [apply (always_ret quiet quiet_refl)|apply panic_always, quiet_refl].
Qed.

Lemma quiet_rewrite : forall h l, always quiet (rewrite_header h l).
Proof. intros h l. unfold rewrite_header. apply (always_map_err quiet), quiet_in. Qed.

Lemma quiet_spent : forall E w w', quiet w w' -> spent E 0 (w_rng w) (w_tr w) (w_rng w') (w_tr w').
Proof. intros E w w' [A B]. apply spent_none; [|exact B]. intros i. now rewrite A. Qed.

(** A new keyslot: salt and nonce are drawn, then the master key is encrypted. *)
Lemma encrypt_mk_any : forall E mk key nonce a t o t',
  encrypt_master_key E mk key nonce a t = (o, t') ->
  sealed t' = sealed t \/ exists ct, sealed t' = sealed t ++ [mkCall a key nonce [] mk ct].
Proof.
  intros E mk key nonce a t o t' H.
  unfold encrypt_master_key, bind, map_err, lift, ciphers_initialize, ciphers_encrypt, ret in H.
  destruct (length key =? 32); [|inversion H; subst; auto]. cbn [ci_alg ci_key] in H.
  destruct (length nonce =? _); [|inversion H; subst; auto].
  destruct (aead_enc _ _ _ _ _ _) as [ct|]; inversion H; subst; [|auto].
  right. exists ct. unfold sealed. rewrite flat_map_app. reflexivity.
Qed.

Lemma slot_spent : forall E mk a ha pw (mkslot : bytes -> bytes -> bytes -> M world key_error unit) w o w',
  (forall x y z, always quiet (mkslot x y z)) ->
  ((salt <- gen_salt ;; nonce <- gen_nonce a MemoryMode ;;
    key <- map_err (fun _ => KKeyHash) (lift (hash E ha pw salt)) ;;
    enc <- on_tr (encrypt_master_key E mk key nonce a) ;; mkslot salt nonce enc) w = (o, w')
   \/ (salt <- gen_salt ;; key <- map_err (fun _ => KKeyHash) (lift (hash E ha pw salt)) ;;
       nonce <- gen_nonce a MemoryMode ;;
       enc <- on_tr (encrypt_master_key E mk key nonce a) ;; mkslot salt nonce enc) w = (o, w')) ->
  spent E 40 (w_rng w) (w_tr w) (w_rng w') (w_tr w').
Proof.
  intros E mk a ha pw mkslot w o w' Q H. destruct (nl_bounds a) as (B1 & B2 & _).
  assert (FIN : forall key w2 w3, hash E ha pw (draw (w_rng w) 0 16) = Ok key ->
     w_rng w2 = (fun i => w_rng w (16 + (NL a + i))) -> w_tr w2 = w_tr w ->
     (enc <- on_tr (encrypt_master_key E mk key (draw (w_rng w) 16 (NL a)) a) ;;
      mkslot (draw (w_rng w) 0 16) (draw (w_rng w) 16 (NL a)) enc) w2 = (o, w3) ->
     spent E 40 (w_rng w) (w_tr w) (w_rng w3) (w_tr w3)).
  { intros key w2 w3 HK R T X.
    assert (Y : exists o1 t1, encrypt_master_key E mk key (draw (w_rng w) 16 (NL a)) a (w_tr w2) = (o1, t1)
        /\ w_rng w3 = w_rng w2 /\ sealed (w_tr w3) = sealed t1).
    { destruct (encrypt_master_key E mk key (draw (w_rng w) 16 (NL a)) a (w_tr w2)) as [o1 t1] eqn:EM.
      exists o1, t1. split; [reflexivity|].
      apply bind_inv in X as [(c & w4 & H1 & X)|[(e & H1 & ->)|[(H1 & ->)|(H1 & ->)]]];
        unfold on_tr, zoom in H1; rewrite EM in H1; inversion H1; subst.
      - apply Q in X as [X1 X2]. cbn in X1, X2. auto.
      - auto. - auto. - auto. }
    destruct Y as (o1 & t1 & EM & R3 & T3). rewrite T in EM.
    destruct (encrypt_mk_any _ _ _ _ _ _ _ _ EM) as [S|(ct & S)].
    - exists (16 + NL a), []. split; [lia|]. split; [intros i; rewrite R3, R; f_equal; lia|].
      split; [rewrite app_nil_r; congruence|]. constructor.
    - exists (16 + NL a), [mkCall a key (draw (w_rng w) 16 (NL a)) [] mk ct]. split; [lia|].
      split; [intros i; rewrite R3, R; f_equal; lia|]. split; [congruence|].
      eapply sp_wrap; [lia|exact HK]. }
  assert (D2 : draw (fun i => w_rng w (16 + i)) 0 (NL a) = draw (w_rng w) 16 (NL a)).
  { rewrite draw_shift. reflexivity. }
  destruct H as [H|H].
  - erewrite bind_ok in H by apply fill_bytes_eq. erewrite bind_ok in H by apply fill_bytes_eq.
    cbn [w_in w_out w_hdr w_rng w_tr adv] in H. change SALT_LEN with 16 in H. rewrite D2 in H.
    destruct (hash_cases E ha pw (draw (w_rng w) 0 16)) as [(key & HK)|HK].
    + erewrite bind_ok in H by (apply map_err_ok; unfold lift; rewrite HK; reflexivity).
      eapply FIN; [exact HK| | |exact H]; reflexivity.
    + erewrite bind_err in H; [|unfold map_err, lift; rewrite HK; reflexivity]. inversion H; subst.
      exists (16 + NL a), []. split; [lia|]. split; [intros i; cbn; f_equal; lia|].
      split; [cbn; now rewrite app_nil_r|constructor].
  - erewrite bind_ok in H by apply fill_bytes_eq. change SALT_LEN with 16 in H.
    destruct (hash_cases E ha pw (draw (w_rng w) 0 16)) as [(key & HK)|HK].
    + erewrite bind_ok in H by (apply map_err_ok; unfold lift; rewrite HK; reflexivity).
      erewrite bind_ok in H by apply fill_bytes_eq.
      cbn [w_in w_out w_hdr w_rng w_tr adv] in H. rewrite D2 in H.
      eapply FIN; [exact HK| | |exact H]; reflexivity.
    + erewrite bind_err in H; [|unfold map_err, lift; rewrite HK; reflexivity]. inversion H; subst.
      exists 16, []. split; [lia|]. split; [reflexivity|].
      split; [cbn; now rewrite app_nil_r|constructor].
Qed.

Lemma key_op_spent : forall E op w o w', run_op E op w = (o, w') ->
  spent E 92 (w_rng w) (w_tr w) (w_rng w') (w_tr w').
Proof.
  intros E op w o w' H.
  assert (Q : forall w1, quiet w w1 -> spent E 92 (w_rng w) (w_tr w) (w_rng w1) (w_tr w1)).
  { intros w1 QW. eapply spent_more; [|apply quiet_spent; exact QW]. lia. }
  assert (K : forall w1 w2, quiet w w1 -> spent E 40 (w_rng w1) (w_tr w1) (w_rng w2) (w_tr w2) ->
     spent E 92 (w_rng w) (w_tr w) (w_rng w2) (w_tr w2)).
  { intros w1 w2 QW S. eapply spent_more; [|eapply spent_seq; [apply quiet_spent; exact QW|exact S]]. lia. }
  assert (OPEN : forall pw (K : header -> list keyslot -> bytes * nat -> M world key_error unit),
     (hs <- open_header ;; let '(h, slots) := hs in
      mk <- on_tr (decrypt_v5_master_key_with_index E slots pw (ht_algorithm (h_type h))) ;; K h slots mk) w = (o, w') ->
     quiet w w' \/ exists h slots mk w1, quiet w w1 /\ K h slots mk w1 = (o, w')).
  { clear. intros pw K H.
    apply bind_inv in H as [([h slots] & w1 & H1 & H)|[(e & H1 & _)|[(H1 & _)|(H1 & _)]]];
      pose proof (quiet_open_header _ _ _ H1) as Q1; auto.
    apply bind_inv in H as [(mk & w2 & H2 & H)|[(e & H2 & _)|[(H2 & _)|(H2 & _)]]];
      apply (quiet_tr _ (find_unsealing _ _ _ _)) in H2;
      pose proof (quiet_trans _ _ _ Q1 H2) as Q2; auto.
    right. exists h, slots, mk, w2. auto. }
  destruct op as [old new ha|old new ha|old|pw]; cbn [run_op] in H.
  - destruct (OPEN old (fun h slots mk => let a := ht_algorithm (h_type h) in
        if length slots =? 4 then err KTooManyKeyslots else
        salt <- gen_salt ;; nonce <- gen_nonce a MemoryMode ;;
        key_new <- map_err (fun _ => KKeyHash) (lift (hash E ha new salt)) ;;
        enc <- on_tr (encrypt_master_key E (fst mk) key_new nonce a) ;;
        rewrite_header h (slots ++ [mkSlot ha enc nonce salt])) H) as [X|(h & slots & mk & w1 & X & R)]; [auto|].
    cbv zeta in R. destruct (length slots =? 4); [inversion R; subst; auto|].
    eapply K; [exact X|]. eapply slot_spent; [|left; exact R]. intros. apply quiet_rewrite.
  - destruct (OPEN old (fun h slots mk => let a := ht_algorithm (h_type h) in
        salt <- gen_salt ;; key_new <- map_err (fun _ => KKeyHash) (lift (hash E ha new salt)) ;;
        nonce <- gen_nonce a MemoryMode ;;
        enc <- on_tr (encrypt_master_key E (fst mk) key_new nonce a) ;;
        if snd mk <? length slots then rewrite_header h (replace_nth (snd mk) (mkSlot ha enc nonce salt) slots)
        else panic) H) as [X|(h & slots & mk & w1 & X & R)]; [auto|].
    cbv zeta in R. eapply K; [exact X|].
    eapply (slot_spent _ _ _ _ _ (fun salt nonce enc => if snd mk <? length slots
       then rewrite_header h (replace_nth (snd mk) (mkSlot ha enc nonce salt) slots) else panic));
      [|right; exact R].
    intros x y z. cbv beta. destruct (snd mk <? length slots); [apply quiet_rewrite|apply panic_always, quiet_refl].
  - destruct (OPEN old (fun h slots mk =>
        if snd mk <? length slots then rewrite_header h (remove_nth (snd mk) slots) else panic) H)
      as [X|(h & slots & mk & w1 & X & R)]; [auto|].
    apply Q. eapply quiet_trans; [exact X|]. cbv beta in R.
    destruct (snd mk <? length slots); [eapply quiet_rewrite; eauto|].
    apply (panic_always quiet quiet_refl) in R. exact R.
  - apply Q. unfold key_verify in H. revert H. apply (always_bind quiet quiet_trans).
    { apply (always_map_err quiet), quiet_in. }
    intros ha. cbv zeta. destruct (below_v5 _); [apply (always_err quiet quiet_refl)|].
    destruct (h_keyslots (fst ha)); [|apply panic_always, quiet_refl].
    apply (always_bind quiet quiet_trans); [apply quiet_tr, find_unsealing|].
    intros _. apply (always_ret quiet quiet_refl).
Qed.

(** ** Decryption *)

Lemma decrypt_loop_quiet : forall E bs fuel s aad, always quiet (decrypt_loop E bs fuel s aad).
Proof.
  intros E bs fuel. induction fuel as [|fuel IH]; intros s aad.
  { intros w o w' H. inversion H. apply quiet_refl. }
  cbn [decrypt_loop]. apply (always_bind quiet quiet_trans).
  { apply (always_map_err quiet), quiet_in. }
  intros buf. destruct (length buf =? bs + 16).
  - apply (always_bind quiet quiet_trans).
    { apply (always_map_err quiet), quiet_tr. unfold decrypt_next.
      destruct (N.eqb _ _); [apply (always_err unsealing unsealing_refl)|].
      apply (always_bind unsealing unsealing_trans); [apply stream_open_unsealing|].
      intros. apply (always_ret unsealing unsealing_refl). }
    intros ms. apply (always_bind quiet quiet_trans); [apply (always_map_err quiet), quiet_out|].
    intros _. apply IH.
  - apply (always_bind quiet quiet_trans).
    { apply (always_map_err quiet), quiet_tr. apply stream_open_unsealing. }
    intros m. apply (always_map_err quiet), quiet_out.
Qed.

Lemma try_unsealing : forall E a pw k, always unsealing (try_keyslot E a pw k).
Proof.
  intros E a pw k. unfold try_keyslot.
  apply (always_bind unsealing unsealing_trans); [apply (always_lift unsealing unsealing_refl)|]. intros key.
  apply (always_bind unsealing unsealing_trans); [apply (always_lift unsealing unsealing_refl)|]. intros c.
  apply (always_bind unsealing unsealing_trans); [apply ciphers_decrypt_unsealing|].
  intros. apply (always_ret unsealing unsealing_refl).
Qed.
Lemma slots_unsealing : forall E a pw l, always unsealing (find_keyslot E a pw l).
Proof.
  intros E a pw l. induction l as [|k l IH]; cbn [find_keyslot]; [apply (always_err unsealing unsealing_refl)|].
  apply (always_or_else unsealing unsealing_trans); [apply try_unsealing|]. intros _. exact IH.
Qed.
Lemma master_key_unsealing : forall E pw h, always unsealing (decrypt_master_key E pw h).
Proof.
  intros E pw h. unfold decrypt_master_key. destruct (ht_version (h_type h)).
  1-3: destruct (h_salt h); [apply (always_lift unsealing unsealing_refl)|apply (always_err unsealing unsealing_refl)].
  - destruct (h_keyslots h) as [[|k l]|]; try apply (always_err unsealing unsealing_refl). apply try_unsealing.
  - destruct (h_keyslots h) as [l|]; [apply slots_unsealing|apply (always_err unsealing unsealing_refl)].
Qed.

Lemma decrypt_quiet : forall E bs detached pw, always quiet (decrypt_execute_bs E bs detached pw).
Proof.
  intros E bs detached pw. unfold decrypt_execute_bs. apply (always_bind quiet quiet_trans).
  { destruct detached; [|apply (always_map_err quiet), quiet_in].
    apply (always_bind quiet quiet_trans); [apply (always_map_err quiet), quiet_hdr|].
    intros ha. apply (always_bind quiet quiet_trans); [apply quiet_in|].
    intros _. apply (always_ret quiet quiet_refl). }
  intros [h aad]. cbv zeta.
  assert (MK : always quiet (map_err (fun _ => DecDecryptMasterKey) (on_tr (decrypt_master_key E pw h)))).
  { apply (always_map_err quiet), quiet_tr. apply master_key_unsealing. }
  destruct (ht_mode (h_type h)).
  - apply (always_bind quiet quiet_trans); [apply (always_map_err quiet), quiet_in|]. intros data.
    apply (always_bind quiet quiet_trans); [exact MK|]. intros mk.
    apply (always_bind quiet quiet_trans).
    { apply (always_map_err quiet), (always_lift quiet quiet_refl). }
    intros c. apply (always_bind quiet quiet_trans).
    { apply (always_map_err quiet), quiet_tr, ciphers_decrypt_unsealing. }
    intros m. apply (always_map_err quiet), quiet_out.
  - apply (always_bind quiet quiet_trans); [exact MK|]. intros mk.
    apply (always_bind quiet quiet_trans).
    { apply (always_map_err quiet), (always_lift quiet quiet_refl). }
    intros s. apply (always_map_err quiet). unfold decrypt_file_bs. intros w o w' H. revert H.
    apply (always_bind quiet quiet_trans); [apply decrypt_loop_quiet|].
    intros _. apply (always_map_err quiet), quiet_out.
Qed.

(** ** Encryption *)

Lemma split_quiet : forall {E A B} (m : M world E A) (k : A -> M world E B) w o w',
  bind m k w = (o, w') -> always quiet m ->
  quiet w w' \/ exists a w1, quiet w w1 /\ k a w1 = (o, w').
Proof.
  intros E A B m k w o w' H Q.
  apply bind_inv in H as [(a & w1 & H1 & H)|[(e & H1 & _)|[(H1 & _)|(H1 & _)]]]; apply Q in H1; eauto.
Qed.

Lemma encrypt_file_body : forall E bs s key nonce a aad w o w', env_ok E -> 0 < bs -> stream_ok s key nonce a ->
  encrypt_file_bs E bs s aad w = (o, w') ->
  w_rng w' = w_rng w /\ exists cs, w_tr w' = w_tr w ++ map Sealed cs
    /\ Forall (fun c => c_key c = key /\ exists x, length x = 4 /\ c_nonce c = nonce ++ x) cs
    /\ NoDup (map c_nonce cs).
Proof.
  intros E bs s key nonce a aad w o w' HE Hbs (-> & Hk & Hn) He.
  apply encrypt_file_spec in He; [|exact Hbs].
  destruct He as (F & bl & last & cs & written & n & G1 & G2 & G3 & G4 & _).
  split; [apply F|]. exists cs. split; [exact G4|].
  pose proof (counter_31 _ HE) as H31.
  assert (Hcnt : (N.of_nat (length bl) <= counter_max E)%N).
  { pose proof (enc_run_counter _ _ _ _ _ _ G1) as D. cbn [s_pos] in D. specialize (D ltac:(lia)). lia. }
  pose proof (enc_run_calls _ _ _ _ _ _ G1) as (A & B & C).
  assert (HB : map c_nonce cs = map (fun i => ctr_nonce nonce i false) (seq 0 (length bl))
                ++ match last with Some _ => [ctr_nonce nonce (length bl) true] | None => [] end).
  { rewrite B. apply f_equal2.
    - apply map_ext_in. intros i Hi. apply in_seq in Hi.
      rewrite nonce_at_ctr; [reflexivity|reflexivity|lia].
    - destruct last; [|reflexivity]. rewrite nonce_at_ctr; [reflexivity|reflexivity|lia]. }
  assert (HP : prefix_of (map c_nonce cs) (stream_nonces nonce (length bl))).
  { rewrite HB. unfold stream_nonces. destruct last; [apply prefix_refl|].
    rewrite app_nil_r. eexists; reflexivity. }
  split.
  - rewrite Forall_forall in C |- *. intros c IN. split; [apply (C c IN)|].
    assert (X : In (c_nonce c) (stream_nonces nonce (length bl))).
    { destruct HP as (t & ->). apply in_or_app. left. now apply in_map. }
    unfold stream_nonces in X. apply in_app_or in X as [X|[X|[]]].
    + apply in_map_iff in X as (i & X & _). rewrite <- X. eexists. split; [|reflexivity]. apply le32_length.
    + rewrite <- X. eexists. split; [|reflexivity]. apply le32_length.
  - eapply prefix_nodup; [exact HP|]. apply stream_nonces_nodup. lia.
Qed.

Lemma encrypt_spent : forall E bs req w o w', env_ok E -> 0 < bs ->
  encrypt_execute_bs E bs req w = (o, w') ->
  spent E 96 (w_rng w) (w_tr w) (w_rng w') (w_tr w').
Proof.
  intros E bs req w o w' HE Hbs H.
  set (t := er_header_type req) in *. set (a := ht_algorithm t) in *. set (r := w_rng w) in *.
  destruct (nl_bounds a) as (B1 & B2 & B3).
  assert (BM : NL a - 4 <= get_nonce_len a (ht_mode t) <= NL a) by (destruct (ht_mode t); rewrite ?B3; lia).
  unfold encrypt_execute_bs in H. fold t a in H.
  erewrite bind_ok in H by apply fill_bytes_eq.
  change (draw (w_rng w) 0 SALT_LEN) with (draw r 0 16) in H.
  destruct (hash_cases E (er_hashing_algorithm req) (er_raw_key req) (draw r 0 16)) as [(key & Hk)|Hk]; rewrite Hk in H.
  2:{ erewrite bind_err in H by reflexivity. inversion H; subst.
      exists 16, []. split; [lia|]. split; [reflexivity|]. split; [cbn; now rewrite app_nil_r|constructor]. }
  pose proof (hash_length _ _ _ _ _ HE Hk) as Hlen.
  erewrite bind_ok in H by (apply map_err_ok; reflexivity).
  erewrite bind_ok in H by (apply map_err_ok; unfold lift, ciphers_initialize; rewrite Hlen; reflexivity).
  erewrite bind_ok in H by apply fill_bytes_eq.
  erewrite bind_ok in H by apply fill_bytes_eq.
  cbn [w_in w_out w_hdr w_rng w_tr adv] in H.
  assert (H1 : draw (fun i => w_rng w (SALT_LEN + i)) 0 MASTER_KEY_LEN = draw r 16 32).
  { rewrite draw_shift. reflexivity. }
  assert (H2 : draw (fun i => w_rng w (SALT_LEN + (MASTER_KEY_LEN + i))) 0 (NL a) = draw r 48 (NL a)).
  { rewrite (draw_shift (fun j => w_rng w (SALT_LEN + j))), draw_shift. reflexivity. }
  rewrite H1, H2 in H.
  destruct (aead_enc E a key (draw r 48 (NL a)) [] (draw r 16 32)) as [wrapped|] eqn:Hw.
  2:{ exfalso. eapply (aead_total _ HE); [..|exact Hw]; auto.
      - apply draw_length.
      - cbn; lia.
      - rewrite draw_length. unfold BLOCK_SIZE. lia. }
  erewrite bind_ok in H.
  2:{ apply map_err_ok. apply zoom_eq. unfold ciphers_encrypt. cbn [ci_alg ci_key].
      rewrite draw_length, Nat.eqb_refl, Hw. reflexivity. }
  erewrite bind_ok in H by apply fill_bytes_eq.
  cbn [w_in w_out w_hdr w_rng w_tr adv] in H.
  assert (H3 : draw (fun i => w_rng w (SALT_LEN + (MASTER_KEY_LEN + (NL a + i)))) 0
                 (get_nonce_len a (ht_mode t)) = draw r (48 + NL a) (get_nonce_len a (ht_mode t))).
  { rewrite (draw_shift (fun j => w_rng w (SALT_LEN + (MASTER_KEY_LEN + j)))),
      (draw_shift (fun j => w_rng w (SALT_LEN + j))), draw_shift.
    unfold SALT_LEN, MASTER_KEY_LEN. f_equal. lia. }
  rewrite H3 in H. clear H1 H2 H3.
  set (c0 := mkCall a key (draw r 48 (NL a)) [] (draw r 16 32) wrapped) in *.
  set (nl := get_nonce_len a (ht_mode t)) in *.
  set (w1 := mkWorld (w_in w) (w_out w) (w_hdr w)
               (fun i => w_rng w (SALT_LEN + (MASTER_KEY_LEN + (NL a + (nl + i))))) (w_tr w ++ [Sealed c0])) in *.
  assert (FIN : forall w2 body, w_rng w2 = w_rng w1 -> sealed (w_tr w2) = sealed (w_tr w1) ++ body ->
     Forall (fun c => c_key c = draw r 16 32
                     /\ exists x, length x = 4 /\ c_nonce c = draw r (48 + NL a) (NL a - 4) ++ x) body ->
     NoDup (map c_nonce body) -> spent E 96 r (w_tr w) (w_rng w2) (w_tr w2)).
  { intros w2 body R T FB ND. exists (48 + NL a + nl), (c0 :: body). split; [lia|].
    split. { intros i. rewrite R. cbn [w1 w_rng]. unfold r, SALT_LEN, MASTER_KEY_LEN. f_equal. lia. }
    split. { rewrite T. cbn [w1 w_tr]. rewrite sealed_app, <- app_assoc. reflexivity. }
    eapply sp_encrypt; eauto. lia. }
  assert (QUIET : forall w2, quiet w1 w2 -> spent E 96 r (w_tr w) (w_rng w2) (w_tr w2)).
  { intros w2 [R T]. apply (FIN w2 []); auto; [now rewrite app_nil_r|constructor]. }
  destruct (enc_stream_initialize (draw r 16 32) (draw r (48 + NL a) nl) a) as [s| | |] eqn:SI.
  2-4: unfold bind, map_err, lift in H; inversion H; subst; apply QUIET; apply quiet_refl.
  erewrite bind_ok in H by (apply map_err_ok; reflexivity).
  cbv zeta in H. match type of H with _ ?x = _ => change x with w1 in H end.
  destruct (enc_init_ok _ _ _ _ SI) as (ES & LK & LN).
  assert (NLE : nl = NL a - 4) by (rewrite draw_length in LN; lia).
  assert (SO : stream_ok s (draw r 16 32) (draw r (48 + NL a) (NL a - 4)) a).
  { rewrite <- NLE. split; [exact ES|]. split; assumption. }
  apply split_quiet in H as [Q|(x1 & w2 & Q1 & H)]; [auto| |apply (always_map_err quiet), quiet_out].
  apply split_quiet in H as [Q|(x2 & w3 & Q2 & H)].
  { apply QUIET. eapply quiet_trans; eauto. }
  2:{ destruct (er_detached req); [|apply quiet_out].
      apply (always_bind quiet quiet_trans); [apply (always_map_err quiet), quiet_hdr|]. intros _. apply quiet_hdr. }
  apply split_quiet in H as [Q|(aad & w4 & Q3 & H)].
  { apply QUIET. eapply quiet_trans; [|exact Q]. eapply quiet_trans; eauto. }
  2:{ apply (always_map_err quiet), (always_lift quiet quiet_refl). }
  apply split_quiet in H as [Q|(x4 & w5 & Q4 & H)].
  { apply QUIET. eapply quiet_trans; [|exact Q]. eapply quiet_trans; [|exact Q3]. eapply quiet_trans; eauto. }
  2:{ apply (always_map_err quiet), quiet_in. }
  assert (Q5 : quiet w1 w5).
  { eapply quiet_trans; [|exact Q4]. eapply quiet_trans; [|exact Q3]. eapply quiet_trans; eauto. }
  assert (HF : exists o1, encrypt_file_bs E bs s aad w5 = (o1, w')).
  { unfold map_err in H. destruct (encrypt_file_bs E bs s aad w5) as [o1 w6]. exists o1. destruct o1; inversion H; reflexivity. }
  destruct HF as (o1 & HF).
  destruct (encrypt_file_body _ _ _ _ _ _ _ _ _ _ HE Hbs SO HF) as (R & body & T & FB & ND).
  destruct Q5 as [R5 T5]. apply (FIN w' body); auto; [congruence|].
  rewrite T, sealed_app, T5. f_equal. apply sealed_map.
Qed.

(** ** Histories *)

Lemma lib_call_spent : forall E x w, env_ok E ->
  spent E 96 (w_rng w) (w_tr w) (w_rng (lib_run E x w)) (w_tr (lib_run E x w)).
Proof.
  intros E x w HE. destruct x as [req|detached pw|op]; cbn [lib_run].
  - destruct (encrypt_execute E req w) as [o w'] eqn:H. eapply encrypt_spent; [exact HE| |exact H]. apply BLOCK_SIZE_pos.
  - destruct (decrypt_execute E detached pw w) as [o w'] eqn:H. apply decrypt_quiet in H.
    eapply spent_more; [|apply quiet_spent; exact H]. lia.
  - destruct (run_op E op w) as [o w'] eqn:H. eapply spent_more; [|eapply key_op_spent; exact H]. lia.
Qed.

Lemma lib_history_spent : forall E r n r' t', env_ok E -> lib_history E r n r' t' -> spent E (96 * n) r [] r' t'.
Proof.
  intros E r n r' t' HE H. induction H as [|n x w H IH].
  - apply spent_none; auto.
  - replace (96 * S n) with (96 * n + 96) by lia. eapply spent_seq; [exact IH|]. apply lib_call_spent, HE.
Qed.

Lemma lib_nonces_fresh : forall E r n r' t', env_ok E -> lib_history E r n r' t' ->
  ~ bad_luck E r (96 * n) -> nonces_fresh t'.
Proof. intros E r n r' t' HE H NB. apply (spent_fresh E (96 * n) r r'); [apply lib_history_spent; assumption|exact NB]. Qed.
