(** The functions of Wipe.v do what those they were made from do, and what they
    leave in memory. *)
From Coq Require Import List Arith NArith ZArith Lia Bool.
From Verif Require Import Bytes Outcome IO IOFacts Primitives Crypto Header KeyModel Stream EncDec
  KeyOps Hash Wipe WipeSpec WipeLib.
Import ListNotations.
Local Open Scope nat_scope.
Local Open Scope list_scope.

Lemma same_on_tr {E A} (m : M (trace * memory) E A) m0 :
  same_run m m0 -> same_run (on_tr_m m) (on_tr m0).
Proof.
  intros H w k. specialize (H (w_tr w) k). unfold on_tr_m, on_tr, zoom. cbn [fst snd].
  destruct (m (w_tr w, k)) as [o [t k']]. cbn [fst snd] in *. rewrite <- H. reflexivity.
Qed.
Lemma tame_on_tr {E A} D b (m : M (trace * memory) E A) : tame D b m -> tame D b (on_tr_m m).
Proof.
  intros H w k o w' k' HD R. unfold on_tr_m in R. cbn [fst snd] in R.
  destruct (m (w_tr w, k)) as [o1 [t k1]] eqn:Em. injection R as <- <- <-.
  exact (H _ _ _ _ _ HD Em).
Qed.

Lemma same_value {S E A B} (m : M (S * memory) E A) a (f : A -> M (S * memory) E B) m0 :
  same_run m (ret a) -> same_run (f a) m0 -> same_run (bind m f) m0.
Proof.
  intros Hm Hf s k. specialize (Hm s k). unfold bind.
  destruct (m (s, k)) as [o [s1 k1]]. cbn [fst snd] in Hm. injection Hm as -> ->.
  exact (Hf s k1).
Qed.

(** Rules taken in order *)
Ltac same :=
  repeat match goal with
  | |- same_run (bind (bind (alloc _ _) (fun j => owning j (ret ?v))) _) _ =>
      apply (same_value _ v)
  | |- same_run (bind (alloc _ _) _) _ => apply same_alloc; intros ?
  | |- same_run (bind (fill _ _) _) _ => apply same_change
  | |- same_run (bind (wipe _) _) _ => apply same_change
  | |- same_run (bind (change _ _) _) _ => apply same_change
  | |- same_run (bind _ (fun _ => wipe _)) _ => apply same_then_change
  | |- same_run (owning _ _) _ => apply same_owning
  | |- same_run (owning_protected _ _) _ => apply same_owning_protected
  | |- same_run (thru _) _ => apply same_thru
  | |- same_run (on_tr_m _) _ => apply same_on_tr
  | |- same_run (map_err _ _) _ => apply same_map_err
  | |- same_run (or_else _ _) _ => apply same_or_else; [|intros ?]
  | |- same_run (ret _) _ => apply same_ret
  | |- same_run (err _) _ => apply same_err
  | |- same_run panic _ => apply same_panic
  | |- same_run diverge _ => apply same_diverge
  | |- same_run (bind _ _) (bind _ _) => apply same_bind; [|intros ?]
  | |- same_run (if ?c then _ else _) _ => destruct c
  end.

Lemma same_hash {S} E h i raw salt :
  same_run (hash_m E h i raw salt : M (S * memory) _ _) (lift (hash E h raw salt)).
Proof. unfold hash_m. same. Qed.
Lemma same_argon {S} E i raw salt v :
  same_run (argon2id_hash_m E i raw salt v : M (S * memory) _ _) (lift (argon2id_hash E raw salt v)).
Proof. unfold argon2id_hash_m. same. Qed.
Lemma same_vec {S E} l n v :
  same_run (vec_to_arr_m l n v : M (S * memory) E _) (ret (vec_to_arr n v)).
Proof. unfold vec_to_arr_m. same. Qed.

Lemma same_try E a i raw k : same_run (try_keyslot_m E a i raw k) (try_keyslot E a raw k).
Proof.
  unfold try_keyslot_m, try_keyslot. same; try apply same_hash. apply same_vec.
Qed.
Lemma same_find E a raw : forall l, same_run (find_keyslot_m E a raw l) (find_keyslot E a raw l).
Proof.
  induction l as [|k l IH]; cbn [find_keyslot_m find_keyslot]; same; [apply same_try|exact IH].
Qed.
Lemma same_master E i raw h :
  same_run (decrypt_master_key_m E i raw h) (decrypt_master_key E raw h).
Proof.
  unfold decrypt_master_key_m, decrypt_master_key. apply same_owning_protected.
  destruct (ht_version (h_type h)); [destruct (h_salt h)|destruct (h_salt h)|destruct (h_salt h)
    |destruct (h_keyslots h) as [[|k l]|]|destruct (h_keyslots h)]; same;
    first [apply same_argon|apply same_try|apply same_find].
Qed.

Lemma same_encrypt_loop E bs aad i : forall fuel s,
  same_run (encrypt_loop_m E bs fuel i s aad) (encrypt_loop E bs fuel s aad).
Proof.
  induction fuel as [|fuel IH]; intros s; cbn [encrypt_loop_m encrypt_loop]; same. apply IH.
Qed.
Lemma same_encrypt_file E bs s aad :
  same_run (encrypt_file_m E bs s aad) (encrypt_file_bs E bs s aad).
Proof.
  unfold encrypt_file_m, encrypt_file_bs. apply same_alloc. intros i. apply same_owning.
  intros w k. 
  exact (same_bind _ _ _ _ (same_encrypt_loop E bs aad i (S (length (d_data (w_in w)))) s)
           (fun _ => same_change i zeroed _ _ (same_thru (map_err (fun _ => SFlush) (on_out dev_flush))))
           w k).
Qed.
Lemma same_decrypt_loop E bs aad i : forall fuel s,
  same_run (decrypt_loop_m E bs fuel i s aad) (decrypt_loop E bs fuel s aad).
Proof.
  induction fuel as [|fuel IH]; intros s; cbn [decrypt_loop_m decrypt_loop]; same. apply IH.
Qed.
Lemma same_decrypt_file E bs s aad :
  same_run (decrypt_file_m E bs s aad) (decrypt_file_bs E bs s aad).
Proof.
  unfold decrypt_file_m, decrypt_file_bs. apply same_alloc. intros i. apply same_owning.
  intros w k.
  exact (same_bind _ _ _ _ (same_decrypt_loop E bs aad i (S (length (d_data (w_in w)))) s)
           (fun _ => same_thru (map_err (fun _ => SFlush) (on_out dev_flush))) w k).
Qed.

Lemma same_encrypt_at E bs i req :
  same_run (encrypt_execute_at E bs i req) (encrypt_execute_bs E bs req).
Proof.
  unfold encrypt_execute_at, encrypt_execute_bs. same; try apply same_encrypt_file.
  all: try apply same_hash.
Qed.
Lemma same_encrypt E bs req :
  same_run (encrypt_execute_m E bs req) (encrypt_execute_bs E bs req).
Proof. apply same_alloc. intros i. apply same_encrypt_at. Qed.
Lemma same_decrypt_at E bs i det raw :
  same_run (decrypt_execute_at E bs i det raw) (decrypt_execute_bs E bs det raw).
Proof.
  unfold decrypt_execute_at, decrypt_execute_bs. same. destruct a as [h aad].
  destruct (ht_mode (h_type h)); same; try apply same_master. apply same_decrypt_file.
Qed.
Lemma same_decrypt E bs det raw :
  same_run (decrypt_execute_m E bs det raw) (decrypt_execute_bs E bs det raw).
Proof. apply same_alloc. intros i. apply same_decrypt_at. Qed.

Lemma same_search E a raw : forall l i,
  same_run (search_keyslots_m E a raw i l) (search_keyslots E a raw i l).
Proof.
  induction l as [|k l IH]; intros i; cbn [search_keyslots_m search_keyslots]; [apply same_ret|].
  apply same_bind; [apply same_map_err, same_alloc; intros j; apply same_hash|]. intros key.
  apply same_bind; [apply same_thru|]. intros c t m.
  pose proof (same_thru (ciphers_decrypt E c (ks_nonce k) [] (ks_enc k)) t m) as T.
  destruct (thru (ciphers_decrypt E c (ks_nonce k) [] (ks_enc k)) (t, m)) as [o [t1 m1]] eqn:R.
  cbn [fst snd] in T. rewrite <- T.
  destruct o as [v|e| |]; try reflexivity. exact (IH (Datatypes.S i) t1 m1).
Qed.
Lemma same_v5 E slots j raw a :
  same_run (decrypt_v5_master_key_with_index_m E slots j raw a)
           (decrypt_v5_master_key_with_index E slots raw a).
Proof.
  unfold decrypt_v5_master_key_with_index_m, decrypt_v5_master_key_with_index.
  apply same_owning_protected, same_bind; [apply same_search|]. intros r. same.
Qed.
Lemma same_encrypt_master E mk key nonce a :
  same_run (encrypt_master_key_m E mk key nonce a) (encrypt_master_key E mk key nonce a).
Proof. unfold encrypt_master_key_m, encrypt_master_key. same. apply same_vec. Qed.

Lemma same_add E old new ha : same_run (key_add_m E old new ha) (key_add E old new ha).
Proof.
  unfold key_add_m, key_add. same. destruct a as [h slots]. same;
    try apply same_v5; try apply same_hash; apply same_encrypt_master.
Qed.
Lemma same_keychange E old new ha : same_run (key_change_m E old new ha) (key_change E old new ha).
Proof.
  unfold key_change_m, key_change. same. destruct a as [h slots]. same;
    try apply same_v5; try apply same_hash; apply same_encrypt_master.
Qed.
Lemma same_delete E old : same_run (key_delete_m E old) (key_delete E old).
Proof.
  unfold key_delete_m, key_delete. same. destruct a as [h slots]. same. apply same_v5.
Qed.
Lemma same_verify E raw : same_run (key_verify_m E raw) (key_verify E raw).
Proof.
  unfold key_verify_m, key_verify. same. destruct (h_keyslots (fst a)); same. apply same_v5.
Qed.
Lemma same_hash_loop H bs i : forall fuel h,
  same_run (hash_loop_m H fuel bs i h) (hash_loop H fuel bs h).
Proof.
  induction fuel as [|fuel IH]; intros h; cbn [hash_loop_m hash_loop]; same. apply IH.
Qed.
Lemma same_hash_file H bs h : same_run (hash_execute_m H bs h) (hash_execute_bs H bs h).
Proof.
  unfold hash_execute_m, hash_execute_bs. apply same_bind; [apply same_thru|]. intros _.
  apply same_alloc. intros i. apply same_owning. intros d k.
  exact (same_bind _ _ _ _ (same_hash_loop H bs i (S (length (d_data d))) h)
           (fun h' => same_ret (hr_finish H h')) d k).
Qed.

(** ** What is left in memory *)

Lemma tame_bind_when {S E A B} D b (m : M S E A) (f : A -> M (S * memory) E B) :
  (forall a, (exists s s', m s = (Ok a, s')) -> tame D b (f a)) -> tame D b (bind (thru m) f).
Proof.
  intros Hf s k o s' k' HD R. unfold bind, thru in R. cbn [fst snd] in R.
  destruct (m s) as [om s1] eqn:Em.
  destruct om as [a|e| |].
  - refine (Hf a _ _ _ _ _ _ HD R). exists s, s1. exact Em.
  - injection R as <- <- <-. exact (tame_err D b e s k _ _ _ HD eq_refl).
  - injection R as <- <- <-. exact (tame_panic D b s k _ _ _ HD eq_refl).
  - injection R as <- <- <-. exact (tame_diverge D b s k _ _ _ HD eq_refl).
Qed.
Lemma tame_fun {S E A} D b (g : S -> M (S * memory) E A) :
  (forall s, tame D b (g s)) -> tame D b (fun s => g (fst s) s).
Proof. intros H s k o s' k' HD R. exact (H s s k o s' k' HD R). Qed.

Ltac tame :=
  repeat match goal with
  | |- tame _ _ (bind (alloc Key _) (fun i => owning_protected i _)) =>
      apply tame_protected_scope; intros ?
  | |- tame _ _ (bind (alloc Public _) (fun i => owning i _)) =>
      apply tame_public_scope; intros ?
  | |- tame _ Anything (bind (alloc Plain _) (fun i => owning i _)) =>
      apply tame_any_scope; intros ?
  | |- tame _ _ (thru _) => apply tame_thru
  | |- tame _ _ (on_tr_m _) => apply tame_on_tr
  | |- tame _ _ (map_err _ _) => apply tame_map_err
  | |- tame _ _ (or_else _ _) => apply tame_or_else; [|intros ?]
  | |- tame _ _ (ret _) => apply tame_ret
  | |- tame _ _ (err _) => apply tame_err
  | |- tame _ _ panic => apply tame_panic
  | |- tame _ _ diverge => apply tame_diverge
  | |- tame _ _ (bind _ _) => apply tame_bind; [|intros ?]
  | |- tame _ _ (if ?c then _ else _) => destruct c
  | |- tame _ _ (owning_protected _ _) =>
      apply tame_owning_protected; [first [assumption|right; reflexivity|left; right; reflexivity]|]
  end.

Lemma tame_hash {S} (D : nat -> Prop) b E h i raw salt :
  D i -> tame D b (hash_m E h i raw salt : M (S * memory) _ _).
Proof. intros Di. unfold hash_m. tame. Qed.
Lemma tame_argon {S} (D : nat -> Prop) b E i raw salt v :
  D i -> tame D b (argon2id_hash_m E i raw salt v : M (S * memory) _ _).
Proof. intros Di. unfold argon2id_hash_m. tame. Qed.
Lemma tame_try (D : nat -> Prop) b E a i raw k : D i -> tame D b (try_keyslot_m E a i raw k).
Proof.
  intros Di. unfold try_keyslot_m. tame; [apply tame_hash, Di|].
  apply tame_vec_to_arr. discriminate.
Qed.
Lemma tame_find (D : nat -> Prop) E a raw : forall b l, tame D b (find_keyslot_m E a raw l).
Proof.
  intros b. induction l as [|k l IH]; cbn [find_keyslot_m]; tame; [|exact IH].
  apply tame_try. right. reflexivity.
Qed.
Lemma tame_master (D : nat -> Prop) b E i raw h :
  D i -> tame D b (decrypt_master_key_m E i raw h).
Proof.
  intros Di. unfold decrypt_master_key_m. apply tame_owning_protected; [exact Di|].
  destruct (ht_version (h_type h)); [destruct (h_salt h)|destruct (h_salt h)|destruct (h_salt h)
    |destruct (h_keyslots h) as [[|k l]|]|destruct (h_keyslots h)]; tame;
    first [apply tame_argon, Di|apply tame_try, Di|apply tame_find].
Qed.

Lemma tame_encrypt_loop (D : nat -> Prop) E bs aad i : D i -> forall fuel s,
  tame D Never (encrypt_loop_m E bs fuel i s aad).
Proof.
  intros Di. induction fuel as [|fuel IH]; intros s; cbn [encrypt_loop_m]; tame;
    first [apply tame_fill, Di|apply IH].
Qed.
Lemma ends_zero_wipe {S E A B} i (m : M (S * memory) E A) (f : M S E B) D :
  tame D Never m -> (forall j, D j <-> j = i) -> ends_zero i (m ;; wipe i ;; thru f).
Proof.
  intros Hm HD s k x s' k' Hi R. unfold bind in R.
  destruct (m (s, k)) as [[a|e| |] [s1 k1]] eqn:Em; try discriminate.
  assert (L : i < length k1).
  { assert (P : post D Never k (is_ok (Ok a : outcome E A)) k1).
    { refine (Hm _ _ _ _ _ _ Em). intros j Dj. apply HD in Dj. subst j. exact Hi. }
    apply post_length in P. lia. }
  unfold wipe, change, thru in R. cbn [fst snd] in R. destruct (f s1) as [[y|e| |] s2]; try discriminate.
  injection R as <- <- <-. rewrite update_nth, Nat.eqb_refl.
  destruct (nth_error k1 i) as [c|] eqn:Ec; [|apply nth_error_None in Ec; lia].
  exists (zeroed c). split; [reflexivity|apply zero_zeros].
Qed.
Lemma tame_encrypt_file (D : nat -> Prop) E bs s aad :
  tame D (OnFailure bs) (encrypt_file_m E bs s aad).
Proof.
  unfold encrypt_file_m. apply tame_plain_scope.
  - intros i. apply tame_bind; [|intros _; apply tame_bind; [apply tame_wipe; right; reflexivity|intros _; apply tame_thru]].
    apply (tame_fun _ _ (fun w => encrypt_loop_m E bs (S (length (d_data (w_in w)))) i s aad)).
    intros w. apply tame_encrypt_loop. right. reflexivity.
  - intros i. apply (ends_zero_wipe i _ _ (fun j => j = i)); [|intros j; reflexivity].
    apply (tame_fun _ _ (fun w => encrypt_loop_m E bs (S (length (d_data (w_in w)))) i s aad)).
    intros w. apply tame_encrypt_loop. reflexivity.
  - unfold zeros. rewrite repeat_length. lia.
Qed.

Lemma ends_zero_then_wipe {S E A} i (m : M S E A) : ends_zero i (thru m ;; wipe i).
Proof.
  intros s k x s' k' Hi R. unfold bind, thru in R. cbn [fst snd] in R.
  destruct (m s) as [[a|e| |] s1]; try discriminate.
  unfold wipe, change in R. cbn [fst snd] in R. injection R as <- <- <-.
  rewrite update_nth, Nat.eqb_refl.
  destruct (nth_error k i) as [c|] eqn:Ec; [|apply nth_error_None in Ec; lia].
  exists (zeroed c). split; [reflexivity|apply zero_zeros].
Qed.
Lemma tame_written (D : nat -> Prop) n x (m : M world stream_error unit) : length x <= n ->
  tame D (OnFailure n) (j <- alloc Plain x ;; owning j (thru m ;; wipe j)).
Proof.
  intros Hx. apply tame_plain_scope; [|intros j; apply ends_zero_then_wipe|exact Hx].
  intros j. apply tame_bind; [apply tame_thru|intros _; apply tame_wipe; right; reflexivity].
Qed.

(** Whatever the ciphers do *)
Lemma tame_decrypt_loop_any (D : nat -> Prop) E bs aad i : D i -> forall fuel s,
  tame D Anything (decrypt_loop_m E bs fuel i s aad).
Proof.
  intros Di. induction fuel as [|fuel IH]; intros s; cbn [decrypt_loop_m]; [apply tame_diverge|].
  apply tame_bind; [apply tame_thru|]. intros buf.
  apply tame_bind; [apply tame_fill, Di|]. intros _.
  assert (X : forall x (m : M world stream_error unit), tame D Anything (j <- alloc Plain x ;; owning j (thru m ;; wipe j) : M (world * memory) stream_error unit)).
  { intros x m. apply tame_any_scope. intros j.
    apply tame_bind; [apply tame_thru|intros _; apply tame_wipe; right; reflexivity]. }
  destruct (length buf =? bs + 16); apply tame_bind; try apply tame_thru; intros m; [|apply X].
  apply tame_bind; [apply X|intros _; apply IH].
Qed.
Lemma tame_decrypt_file_any (D : nat -> Prop) E bs s aad :
  tame D Anything (decrypt_file_m E bs s aad).
Proof.
  unfold decrypt_file_m. apply tame_public_scope. intros i.
  apply tame_bind; [|intros _; apply tame_thru].
  apply (tame_fun _ _ (fun w => decrypt_loop_m E bs (S (length (d_data (w_in w)))) i s aad)).
  intros w. apply tame_decrypt_loop_any. right. reflexivity.
Qed.

Section Dec.
Context (E : env) (ok : env_ok E).

Lemma read_length n w got w' :
  map_err (fun _ : io_error => SRead) (on_in (dev_read n)) w = (Ok got, w') -> length got <= n.
Proof.
  unfold map_err, on_in, zoom. destruct (dev_read n (w_in w)) as [o d] eqn:R.
  apply dev_read_spec in R as (_ & _ & _ & R). destruct o; try discriminate.
  intros X. injection X as -> _. apply R.
Qed.
Lemma next_length s aad ct w ms w' :
  map_err (fun _ : unit => SCrypt) (on_tr (decrypt_next E s aad ct)) w = (Ok ms, w') ->
  length ct = length (fst ms) + 16.
Proof.
  unfold map_err, on_tr, zoom, decrypt_next, bind, stream_open.
  destruct (N.eqb (s_pos s) (counter_max E)); [discriminate|].
  destruct (aead_dec E (s_alg s) (s_key s) _ aad ct) as [m|] eqn:D; [|discriminate].
  intros X. injection X as <- _. cbn [fst]. exact (aead_dec_length _ ok _ _ _ _ _ _ D).
Qed.
Lemma last_length s aad ct w m w' :
  map_err (fun _ : unit => SCrypt) (on_tr (decrypt_last E s aad ct)) w = (Ok m, w') ->
  length ct = length m + 16.
Proof.
  unfold map_err, on_tr, zoom, decrypt_last, stream_open.
  destruct (aead_dec E (s_alg s) (s_key s) _ aad ct) as [x|] eqn:D; [|discriminate].
  intros X. injection X as <- _. exact (aead_dec_length _ ok _ _ _ _ _ _ D).
Qed.

Lemma tame_decrypt_loop (D : nat -> Prop) bs aad i : D i -> forall fuel s,
  tame D (OnFailure bs) (decrypt_loop_m E bs fuel i s aad).
Proof.
  intros Di. induction fuel as [|fuel IH]; intros s; cbn [decrypt_loop_m]; [apply tame_diverge|].
  apply tame_bind_when. intros buf (w & w' & R). apply read_length in R.
  apply tame_bind; [apply tame_fill, Di|]. intros _.
  destruct (length buf =? bs + 16).
  - apply tame_bind_when. intros ms (w1 & w1' & R1). apply next_length in R1.
    apply tame_bind; [apply tame_written; lia|intros _; apply IH].
  - apply tame_bind_when. intros m (w1 & w1' & R1). apply last_length in R1.
    apply tame_written. lia.
Qed.
Lemma tame_decrypt_file (D : nat -> Prop) bs s aad :
  tame D (OnFailure bs) (decrypt_file_m E bs s aad).
Proof.
  unfold decrypt_file_m. apply tame_public_scope. intros i.
  apply tame_bind; [|intros _; apply tame_thru].
  apply (tame_fun _ _ (fun w => decrypt_loop_m E bs (S (length (d_data (w_in w)))) i s aad)).
  intros w. apply tame_decrypt_loop. right. reflexivity.
Qed.
End Dec.

Definition nobody (j : nat) : Prop := False.

Lemma tame_encrypt D E bs req : tame D (OnFailure bs) (encrypt_execute_m E bs req).
Proof.
  unfold encrypt_execute_m, encrypt_execute_at. tame; try apply tame_encrypt_file. all: apply tame_hash; right; reflexivity.
Qed.
Lemma tame_encrypt_at (D : nat -> Prop) E bs i req : D i ->
  tame D (OnFailure bs) (encrypt_execute_at E bs i req).
Proof.
  intros Di. unfold encrypt_execute_at. tame; try apply tame_encrypt_file. all: apply tame_hash; exact Di.
Qed.

(** decrypt.rs from line 96 on, in the words of [decrypt_execute_m] *)
Definition rest_m (E : env) (bs i : nat) (raw_key : bytes) (ha : header * bytes)
  : M (world * memory) dec_error unit :=
  let '(h, aad) := ha in
  let a := ht_algorithm (h_type h) in
  match ht_mode (h_type h) with
  | MemoryMode =>
      data <- thru (map_err (fun _ => DecReadEncryptedData) (on_in dev_read_to_end)) ;;
      j <- alloc Public data ;;
      owning j
      (mk <- map_err (fun _ => DecDecryptMasterKey)
               (on_tr_m (decrypt_master_key_m E i raw_key h)) ;;
       c <- thru (map_err (fun _ => DecInitializeCiphers) (lift (ciphers_initialize mk a))) ;;
       m <- thru (map_err (fun _ => DecDecryptData)
                    (on_tr (ciphers_decrypt E c (h_nonce h) aad data))) ;;
       x <- alloc Plain m ;;
       owning x (thru (map_err (fun _ => DecWriteData) (on_out (dev_write_all m)))))
  | StreamMode =>
      mk <- map_err (fun _ => DecDecryptMasterKey)
              (on_tr_m (decrypt_master_key_m E i raw_key h)) ;;
      s <- thru (map_err (fun _ => DecInitializeStreams)
                   (lift (dec_stream_initialize mk (h_nonce h) a))) ;;
      map_err (fun _ => DecDecryptData) (decrypt_file_m E bs s aad)
  end.
(** decrypt.rs lines 61-93 *)
Definition header_step (detached : bool) : M world dec_error (header * bytes) :=
  if detached then
    ha <- map_err (fun _ => DecDeserializeHeader) (on_hdr deserialize) ;;
    on_in (skip_empty_header (get_size (ht_version (h_type (fst ha))))) ;;
    ret ha
  else map_err (fun _ => DecDeserializeHeader) (on_in deserialize).
Lemma decrypt_parts E bs det raw :
  decrypt_execute_m E bs det raw
  = (i <- alloc Key raw ;;
     owning_protected i (ha <- thru (header_step det) ;; rest_m E bs i raw ha)).
Proof. reflexivity. Qed.

Lemma tame_decrypt_any D E bs det raw : tame D Anything (decrypt_execute_m E bs det raw).
Proof.
  rewrite decrypt_parts. tame. destruct a as [h aad]. unfold rest_m.
  destruct (ht_mode (h_type h)); tame; try apply tame_decrypt_file_any.
  - apply tame_master. left. right. reflexivity.
  - apply tame_master. right. reflexivity.
Qed.
Lemma decrypt_parts_at E bs i det raw :
  decrypt_execute_at E bs i det raw
  = owning_protected i (ha <- thru (header_step det) ;; rest_m E bs i raw ha).
Proof. reflexivity. Qed.
Lemma tame_decrypt_at (D : nat -> Prop) E bs i det raw : D i ->
  tame D Anything (decrypt_execute_at E bs i det raw).
Proof.
  intros Di. rewrite decrypt_parts_at. tame. destruct a as [h aad]. unfold rest_m.
  destruct (ht_mode (h_type h)); tame; try apply tame_decrypt_file_any.
  - apply tame_master. left. exact Di.
  - apply tame_master. exact Di.
Qed.
Lemma tame_rest (D : nat -> Prop) E bs i raw ha : env_ok E -> D i ->
  ht_mode (h_type (fst ha)) = StreamMode -> tame D (OnFailure bs) (rest_m E bs i raw ha).
Proof.
  intros ok Di Hm. destruct ha as [h aad]. unfold rest_m. cbn [fst] in Hm. rewrite Hm.
  tame; [apply tame_master, Di|apply tame_decrypt_file, ok].
Qed.

Lemma tame_search (D : nat -> Prop) b E a raw : forall l i, tame D b (search_keyslots_m E a raw i l).
Proof.
  induction l as [|k l IH]; intros i; cbn [search_keyslots_m]; [apply tame_ret|].
  apply tame_bind.
  { apply tame_map_err. unfold hash_m. apply tame_protected_scope. intros j. apply tame_thru. }
  intros key. apply tame_bind; [apply tame_thru|]. intros c s m o s' m' HD R.
  unfold thru in R. cbn [fst snd] in R.
  destruct (ciphers_decrypt E c (ks_nonce k) [] (ks_enc k) s) as [[v|e| |] t].
  - assert (T : tame D b (arr <- vec_to_arr_m Key MASTER_KEY_LEN v ;; ret (arr, i)
                          : M (trace * memory) key_error (bytes * nat))).
    { apply tame_bind; [apply tame_vec_to_arr; discriminate|intros x; apply tame_ret]. }
    exact (T _ _ _ _ _ HD R).
  - exact (IH _ _ _ _ _ _ HD R).
  - injection R as <- <- <-. exact (tame_panic (E := key_error) (A := bytes * nat) D b t m _ _ _ HD eq_refl).
  - injection R as <- <- <-. exact (tame_diverge (E := key_error) (A := bytes * nat) D b t m _ _ _ HD eq_refl).
Qed.
Lemma tame_v5 (D : nat -> Prop) b E slots j raw a : D j ->
  tame D b (decrypt_v5_master_key_with_index_m E slots j raw a).
Proof.
  intros Dj. unfold decrypt_v5_master_key_with_index_m. tame. apply tame_search.
Qed.
Lemma tame_encrypt_master D b E mk key nonce a : tame D b (encrypt_master_key_m E mk key nonce a).
Proof. unfold encrypt_master_key_m. tame. apply tame_vec_to_arr. discriminate. Qed.

Lemma tame_add D E old new ha : tame D Never (key_add_m E old new ha).
Proof.
  unfold key_add_m. tame. destruct a as [h slots]. tame.
  - apply tame_v5. left. right. reflexivity.
  - apply tame_hash. right. reflexivity.
  - apply tame_encrypt_master.
Qed.
Lemma tame_keychange D E old new ha : tame D Never (key_change_m E old new ha).
Proof.
  unfold key_change_m. tame. destruct a as [h slots]. tame.
  - apply tame_v5. left. right. reflexivity.
  - apply tame_hash. right. reflexivity.
  - apply tame_encrypt_master.
Qed.
Lemma tame_delete D E old : tame D Never (key_delete_m E old).
Proof.
  unfold key_delete_m. tame. destruct a as [h slots]. tame. apply tame_v5. right. reflexivity.
Qed.
Lemma tame_verify D E raw : tame D Never (key_verify_m E raw).
Proof.
  unfold key_verify_m. tame. destruct (h_keyslots (fst a)); tame. apply tame_v5. right. reflexivity.
Qed.

(** ** In the words of the specification *)

Lemma post_start b ok k' : post nobody b [] ok k' -> Forall settled k' /\ stain_ok b ok k'.
Proof.
  intros (k1 & new & -> & [L _] & F & S1). destruct k1; [|discriminate]. split; assumption.
Qed.
Lemma settled_keys k : Forall settled k -> keys_wiped k.
Proof.
  intros F c I L. rewrite Forall_forall in F. destruct (F c I) as [F1 F2].
  split; [exact F1|exact (F2 L)].
Qed.
Lemma settled_all k : Forall settled k -> stains k = [] -> all_wiped k.
Proof.
  intros F S1 c I L. rewrite Forall_forall in F. destruct (F c I) as [F1 F2].
  split; [exact F1|]. destruct (c_label c) eqn:Lc; [exact (F2 eq_refl)| |congruence].
  apply zerob_zero. destruct (zerob (c_bytes c)) eqn:Z; [reflexivity|exfalso].
  assert (X : In c (stains k)).
  { unfold stains. apply filter_In. split; [exact I|]. unfold stain. rewrite Lc, Z. reflexivity. }
  rewrite S1 in X. exact X.
Qed.
Lemma settled_one n k c : Forall settled k -> stains k = [c] -> length (c_bytes c) <= n ->
  all_but_one_wiped n k.
Proof.
  intros F S1 Hn. assert (I : In c (stains k)) by (rewrite S1; left; reflexivity).
  unfold stains in I. apply filter_In in I as [I Sc].
  apply in_split in I as (k1 & k2 & ->). exists k1, c, k2. split; [reflexivity|].
  rewrite stains_app in S1. unfold stains at 2 in S1. cbn [filter] in S1. rewrite Sc in S1.
  fold (stains k2) in S1.
  apply Forall_app in F as [Fa Fb]. apply Forall_inv in Fb as Fc. apply Forall_inv_tail in Fb.
  split.
  - apply settled_all; [apply Forall_app; split; assumption|]. rewrite stains_app.
    destruct (stains k1) as [|x [|y l]]; [|discriminate|discriminate].
    injection S1 as ->. reflexivity.
  - unfold stain in Sc. destruct (c_label c) eqn:Lc; try discriminate.
    split; [reflexivity|]. split; [apply Fc|exact Hn].
Qed.

Lemma tame_start {S E A} b (m : M (S * memory) E A) s :
  tame nobody b m ->
  Forall settled (memory_after m s) /\ stain_ok b (is_ok (fst (m (s, [])))) (memory_after m s).
Proof.
  intros H. unfold memory_after. destruct (m (s, [])) as [o [s' k']] eqn:R. cbn [fst snd].
  apply post_start. apply (H s [] o s' k'); [intros j []|exact R].
Qed.
Lemma on_failure_spec n ok k : Forall settled k -> stain_ok (OnFailure n) ok k ->
  all_wiped k \/ (ok = false /\ all_but_one_wiped n k).
Proof.
  intros F [S1|(Ho & c & S1 & Hn)].
  - left. exact (settled_all _ F S1).
  - right. split; [exact Ho|]. exact (settled_one n k c F S1 Hn).
Qed.
