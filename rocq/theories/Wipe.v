(** What the programs leave in memory: the functions of volaris-crypto and
    volaris-tools that handle keys and content, with the heap buffers they
    allocate, wipe ([zeroize]) and release.

    The results and effects of these functions are those of Crypto.v, KeyModel.v,
    Stream.v, EncDec.v, KeyOps.v and Hash.v (proved: C92); here each of them also
    keeps book of its buffers.  Released memory keeps what it held until somebody
    uses it again.

    Simplified: only heap buffers ([Vec], [Box<[u8]>]) holding keys, content or
    ciphertext are followed.  Not followed: arrays on the stack and the copies
    that moving them leaves behind, the key schedules inside the ciphers, buffers
    of the headers and of the AAD, which are public, and what the crates called
    allocate themselves.  A panic unwinds and runs the destructors (no profile of
    /repo says otherwise). *)
From Coq Require Import List Arith NArith ZArith String.
From Verif Require Import Bytes Outcome IO Primitives Crypto Header KeyModel Stream EncDec KeyOps Hash.
Import ListNotations.
Local Open Scope nat_scope.
Local Open Scope list_scope.

(** What a buffer is for: a secret the user gave or a master key; content of
    files; ciphertext *)
Inductive label := Key | Plain | Public.
Record cell := mkCell { c_label : label; c_bytes : bytes; c_live : bool }.
(** Every buffer allocated so far, the released ones included *)
Definition memory := list cell.

Fixpoint update (i : nat) (f : cell -> cell) (k : memory) : memory :=
  match k, i with
  | [], _ => []
  | c :: k', O => f c :: k'
  | c :: k', S i' => c :: update i' f k'
  end.

Section Buffers.
Context {S : Type}.

(** A step that allocates no buffer of interest *)
Definition thru {E A} (m : M S E A) : M (S * memory) E A := fun s =>
  let '(o, s') := m (fst s) in (o, (s', snd s)).

(** [vec![..]], [clone], or a [Vec] received from a function; its index *)
Definition alloc {E} (l : label) (b : bytes) : M (S * memory) E nat := fun s =>
  (Ok (List.length (snd s)), (fst s, snd s ++ [mkCell l b true])).

Definition change {E} (i : nat) (f : cell -> cell) : M (S * memory) E unit := fun s =>
  (Ok tt, (fst s, update i f (snd s))).

(** Reading into the front of a buffer; the borrow checker knows it is live *)
Definition filled (b : bytes) (c : cell) : cell :=
  if c_live c
  then mkCell (c_label c)
              (firstn (List.length (c_bytes c)) (b ++ skipn (List.length b) (c_bytes c))) true
  else c.
Definition fill {E} (i : nat) (b : bytes) : M (S * memory) E unit := change i (filled b).

(** [Zeroize::zeroize] (zeroize crate) *)
Definition zeroed (c : cell) : cell :=
  mkCell (c_label c) (zeros (List.length (c_bytes c))) (c_live c).
Definition wipe {E} (i : nat) : M (S * memory) E unit := change i zeroed.

(** The end of a scope that owns buffer [i], however it is reached: it is
    released unless it was moved out and released already. *)
Definition dead (c : cell) : cell := mkCell (c_label c) (c_bytes c) false.
Definition owning {E A} (i : nat) (m : M (S * memory) E A) : M (S * memory) E A := fun s =>
  let '(o, (s', k)) := m s in (o, (s', update i dead k)).

(** The same for a buffer inside [Protected] (protected.rs lines 63-70) *)
Definition dead_protected (c : cell) : cell := if c_live c then dead (zeroed c) else c.
Definition owning_protected {E A} (i : nat) (m : M (S * memory) E A) : M (S * memory) E A :=
  fun s => let '(o, (s', k)) := m s in (o, (s', update i dead_protected k)).

(** volaris-crypto key.rs lines 41-82; [raw_key] is in buffer [i] *)
Definition argon2id_hash_m (E : env) (i : nat) (raw_key salt : bytes) (v : header_version)
  : M (S * memory) unit bytes :=
  owning_protected i (thru (lift (argon2id_hash E raw_key salt v))).

(** header.rs lines 127-148 with key.rs lines 41-134 *)
Definition hash_m (E : env) (h : hashing_algorithm) (i : nat) (raw_key salt : bytes)
  : M (S * memory) unit bytes :=
  owning_protected i (thru (lift (hash E h raw_key salt))).

(** key.rs lines 189-195; [master_key_vec] belongs to the function *)
Definition vec_to_arr_m {E} (l : label) (n : nat) (v : bytes) : M (S * memory) E bytes :=
  i <- alloc l v ;; owning i (wipe i ;; ret (vec_to_arr n v)).

End Buffers.

(** Access to the trace, as [on_tr] *)
Definition on_tr_m {E A} (m : M (trace * memory) E A) : M (world * memory) E A := fun s =>
  let w := fst s in
  let '(o, (t, k)) := m (w_tr w, snd s) in
  (o, (mkWorld (w_in w) (w_out w) (w_hdr w) (w_rng w) t, k)).

(** ** volaris-crypto/src/key.rs *)

(** key.rs lines 158-163 and 174-179 *)
Definition try_keyslot_m (E : env) (a : algorithm) (i : nat) (raw_key : bytes) (k : keyslot)
  : M (trace * memory) unit bytes :=
  key <- hash_m E (ks_hash k) i raw_key (ks_salt k) ;;
  c <- thru (lift (ciphers_initialize key a)) ;;
  m <- thru (ciphers_decrypt E c (ks_nonce k) [] (ks_enc k)) ;;
  vec_to_arr_m Key MASTER_KEY_LEN m.

(** key.rs lines 170-181; [raw_key.clone()] on line 174 *)
Fixpoint find_keyslot_m (E : env) (a : algorithm) (raw_key : bytes) (l : list keyslot)
  : M (trace * memory) unit bytes :=
  match l with
  | [] => err tt
  | k :: l' =>
      or_else (i <- alloc Key raw_key ;; owning_protected i (try_keyslot_m E a i raw_key k))
              (fun _ => find_keyslot_m E a raw_key l')
  end.

(** key.rs lines 144-184; the parameter [raw_key] is in buffer [i] *)
Definition decrypt_master_key_m (E : env) (i : nat) (raw_key : bytes) (h : header)
  : M (trace * memory) unit bytes :=
  owning_protected i
    match ht_version (h_type h) with
    | V1 | V2 | V3 =>
        match h_salt h with
        | None => err tt
        | Some salt => argon2id_hash_m E i raw_key salt (ht_version (h_type h))
        end
    | V4 =>
        match h_keyslots h with
        | None | Some [] => err tt
        | Some (k :: _) => try_keyslot_m E (ht_algorithm (h_type h)) i raw_key k
        end
    | V5 =>
        match h_keyslots h with
        | None => err tt
        | Some l => find_keyslot_m E (ht_algorithm (h_type h)) raw_key l
        end
    end.

(** ** volaris-crypto/src/stream.rs *)

(** stream.rs lines 194-230; the read buffer is [i], [encrypted_data] a buffer of
    each round *)
Fixpoint encrypt_loop_m (E : env) (bs fuel i : nat) (s : stream) (aad : bytes)
  : M (world * memory) stream_error unit :=
  match fuel with
  | O => diverge
  | S fuel' =>
      buf <- thru (map_err (fun _ => SRead) (on_in (dev_read bs))) ;;
      fill i buf ;;
      if List.length buf =? bs then
        cs <- thru (map_err (fun _ => SCrypt) (on_tr (encrypt_next E s aad buf))) ;;
        (j <- alloc Public (fst cs) ;;
         owning j (thru (map_err (fun _ => SWrite) (on_out (dev_write_all (fst cs)))))) ;;
        encrypt_loop_m E bs fuel' i (snd cs) aad
      else
        ct <- thru (map_err (fun _ => SCrypt) (on_tr (encrypt_last E s aad buf))) ;;
        j <- alloc Public ct ;;
        owning j (thru (map_err (fun _ => SWrite) (on_out (dev_write_all ct))))
  end.

(** stream.rs lines 184-238; the read buffer is wiped on line 231 *)
Definition encrypt_file_m (E : env) (bs : nat) (s : stream) (aad : bytes)
  : M (world * memory) stream_error unit :=
  i <- alloc Plain (zeros bs) ;;
  owning i
    ((fun w => encrypt_loop_m E bs (S (List.length (d_data (w_in (fst w))))) i s aad w) ;;
     wipe i ;;
     thru (map_err (fun _ => SFlush) (on_out dev_flush))).

(** stream.rs lines 362-397; [buffer] is [i], [decrypted_data] a buffer of each
    round, wiped on lines 378 and 394 *)
Fixpoint decrypt_loop_m (E : env) (bs fuel i : nat) (s : stream) (aad : bytes)
  : M (world * memory) stream_error unit :=
  match fuel with
  | O => diverge
  | S fuel' =>
      buf <- thru (map_err (fun _ => SRead) (on_in (dev_read (bs + 16)))) ;;
      fill i buf ;;
      if List.length buf =? bs + 16 then
        ms <- thru (map_err (fun _ => SCrypt) (on_tr (decrypt_next E s aad buf))) ;;
        (j <- alloc Plain (fst ms) ;;
         owning j (thru (map_err (fun _ => SWrite) (on_out (dev_write_all (fst ms)))) ;;
                   wipe j)) ;;
        decrypt_loop_m E bs fuel' i (snd ms) aad
      else
        m <- thru (map_err (fun _ => SCrypt) (on_tr (decrypt_last E s aad buf))) ;;
        j <- alloc Plain m ;;
        owning j (thru (map_err (fun _ => SWrite) (on_out (dev_write_all m))) ;; wipe j)
  end.

(** stream.rs lines 352-405 *)
Definition decrypt_file_m (E : env) (bs : nat) (s : stream) (aad : bytes)
  : M (world * memory) stream_error unit :=
  i <- alloc Public (zeros (bs + 16)) ;;
  owning i
    ((fun w => decrypt_loop_m E bs (S (List.length (d_data (w_in (fst w))))) i s aad w) ;;
     thru (map_err (fun _ => SFlush) (on_out dev_flush))).

(** ** volaris-tools/src/encrypt.rs and decrypt.rs *)

(** encrypt.rs lines 57-150; the secret is in buffer [i] *)
Definition encrypt_execute_at (E : env) (bs i : nat) (req : enc_request)
  : M (world * memory) enc_error unit :=
  let t := er_header_type req in
  owning_protected i
  (salt <- thru gen_salt ;;
   key <- map_err (fun _ => EncHashKey)
            (hash_m E (er_hashing_algorithm req) i (er_raw_key req) salt) ;;
   cipher <- thru (map_err (fun _ => EncInitializeCiphers)
                     (lift (ciphers_initialize key (ht_algorithm t)))) ;;
   master_key <- thru gen_master_key ;;
   mk_nonce <- thru (gen_nonce (ht_algorithm t) MemoryMode) ;;
   enc_key <- thru (map_err (fun _ => EncEncryptMasterKey)
                      (on_tr (ciphers_encrypt E cipher mk_nonce [] master_key))) ;;
   (* lines 81-93 *)
   arr <- (j <- alloc Public enc_key ;;
           owning j (ret (vec_to_arr ENCRYPTED_MASTER_KEY_LEN enc_key))) ;;
   let slot := mkSlot (er_hashing_algorithm req) arr mk_nonce salt in
   nonce <- thru (gen_nonce (ht_algorithm t) (ht_mode t)) ;;
   streams <- thru (map_err (fun _ => EncInitializeStreams)
                      (lift (enc_stream_initialize master_key nonce (ht_algorithm t)))) ;;
   let h := mkHeader t nonce None (Some [slot]) in
   thru (map_err (fun _ => EncResetCursorPosition) (on_out dev_rewind)) ;;
   thru (if er_detached req then
           map_err (fun _ => EncResetCursorPosition) (on_hdr dev_rewind) ;;
           on_hdr (write_header_to h)
         else on_out (write_header_to h)) ;;
   aad <- thru (map_err (fun _ => EncCreateAad) (lift (create_aad h))) ;;
   thru (map_err (fun _ => EncResetCursorPosition) (on_in dev_rewind)) ;;
   map_err (fun _ => EncEncryptFile) (encrypt_file_m E bs streams aad)).
(** The secret arrives in a buffer *)
Definition encrypt_execute_m (E : env) (bs : nat) (req : enc_request)
  : M (world * memory) enc_error unit :=
  i <- alloc Key (er_raw_key req) ;; encrypt_execute_at E bs i req.

(** decrypt.rs lines 56-150; [decrypted_bytes] (line 118) is not wiped; the secret is
    in buffer [i] *)
Definition decrypt_execute_at (E : env) (bs i : nat) (detached : bool) (raw_key : bytes)
  : M (world * memory) dec_error unit :=
  owning_protected i
  (ha <- thru (if detached then
                 ha <- map_err (fun _ => DecDeserializeHeader) (on_hdr deserialize) ;;
                 on_in (skip_empty_header (get_size (ht_version (h_type (fst ha))))) ;;
                 ret ha
               else map_err (fun _ => DecDeserializeHeader) (on_in deserialize)) ;;
   let '(h, aad) := ha in
   let a := ht_algorithm (h_type h) in
   match ht_mode (h_type h) with
   | MemoryMode =>
       data <- thru (map_err (fun _ => DecReadEncryptedData) (on_in dev_read_to_end)) ;;
       j <- alloc Public data ;;
       owning j
       (mk <- map_err (fun _ => DecDecryptMasterKey)
                (on_tr_m (decrypt_master_key_m E i raw_key h)) ;;
        c <- thru (map_err (fun _ => DecInitializeCiphers) (lift (ciphers_initialize mk a))) ;;
        m <- thru (map_err (fun _ => DecDecryptData)
                     (on_tr (ciphers_decrypt E c (h_nonce h) aad data))) ;;
        x <- alloc Plain m ;;
        owning x (thru (map_err (fun _ => DecWriteData) (on_out (dev_write_all m)))))
   | StreamMode =>
       mk <- map_err (fun _ => DecDecryptMasterKey)
               (on_tr_m (decrypt_master_key_m E i raw_key h)) ;;
       s <- thru (map_err (fun _ => DecInitializeStreams)
                    (lift (dec_stream_initialize mk (h_nonce h) a))) ;;
       map_err (fun _ => DecDecryptData) (decrypt_file_m E bs s aad)
   end).
Definition decrypt_execute_m (E : env) (bs : nat) (detached : bool) (raw_key : bytes)
  : M (world * memory) dec_error unit :=
  i <- alloc Key raw_key ;; decrypt_execute_at E bs i detached raw_key.

(** ** volaris-tools/src/key.rs and key/*.rs *)

(** key.rs lines 58-80; [raw_key_old.clone()] on line 61, the decrypted master
    key is wiped on line 74 *)
Fixpoint search_keyslots_m (E : env) (a : algorithm) (raw_key : bytes) (i : nat)
  (l : list keyslot) : M (trace * memory) key_error (bytes * nat) :=
  match l with
  | [] => ret (zeros MASTER_KEY_LEN, 0)
  | k :: l' =>
      key <- map_err (fun _ => KKeyHash)
               (j <- alloc Key raw_key ;; hash_m E (ks_hash k) j raw_key (ks_salt k)) ;;
      c <- thru (map_err (fun _ => KCipherInit) (lift (ciphers_initialize key a))) ;;
      fun s =>
        match thru (ciphers_decrypt E c (ks_nonce k) [] (ks_enc k)) s with
        | (Ok m, s') => (arr <- vec_to_arr_m Key MASTER_KEY_LEN m ;; ret (arr, i)) s'
        | (Err _, s') => search_keyslots_m E a raw_key (S i) l' s'
        | (Panic, s') => (Panic, s')
        | (Diverge, s') => (Diverge, s')
        end
  end.

(** key.rs lines 49-89; [raw_key_old] is in buffer [j] *)
Definition decrypt_v5_master_key_with_index_m (E : env) (slots : list keyslot) (j : nat)
  (raw_key : bytes) (a : algorithm) : M (trace * memory) key_error (bytes * nat) :=
  owning_protected j
  (r <- search_keyslots_m E a raw_key 0 slots ;;
   if bytes_eqb (fst r) (zeros MASTER_KEY_LEN) then err KIncorrectKey else ret r).

(** key.rs lines 94-109 *)
Definition encrypt_master_key_m (E : env) (master_key key_new nonce : bytes) (a : algorithm)
  : M (trace * memory) key_error bytes :=
  c <- thru (map_err (fun _ => KCipherInit) (lift (ciphers_initialize key_new a))) ;;
  e <- thru (map_err (fun _ => KMasterKeyEncrypt) (ciphers_encrypt E c nonce [] master_key)) ;;
  vec_to_arr_m Public ENCRYPTED_MASTER_KEY_LEN e.

(** add.rs lines 26-99 *)
Definition key_add_m (E : env) (old new : bytes) (ha : hashing_algorithm)
  : M (world * memory) key_error unit :=
  i <- alloc Key old ;;
  owning_protected i
  (j <- alloc Key new ;;
   owning_protected j
   (hs <- thru open_header ;;
    let '(h, slots) := hs in
    let a := ht_algorithm (h_type h) in
    mk <- on_tr_m (decrypt_v5_master_key_with_index_m E slots i old a) ;;
    if List.length slots =? 4 then err KTooManyKeyslots
    else
      salt <- thru gen_salt ;;
      nonce <- thru (gen_nonce a MemoryMode) ;;
      key_new <- map_err (fun _ => KKeyHash) (hash_m E ha j new salt) ;;
      enc <- on_tr_m (encrypt_master_key_m E (fst mk) key_new nonce a) ;;
      thru (rewrite_header h (slots ++ [mkSlot ha enc nonce salt])))).

(** change.rs lines 26-93 *)
Definition key_change_m (E : env) (old new : bytes) (ha : hashing_algorithm)
  : M (world * memory) key_error unit :=
  i <- alloc Key old ;;
  owning_protected i
  (j <- alloc Key new ;;
   owning_protected j
   (hs <- thru open_header ;;
    let '(h, slots) := hs in
    let a := ht_algorithm (h_type h) in
    mk <- on_tr_m (decrypt_v5_master_key_with_index_m E slots i old a) ;;
    salt <- thru gen_salt ;;
    key_new <- map_err (fun _ => KKeyHash) (hash_m E ha j new salt) ;;
    nonce <- thru (gen_nonce a MemoryMode) ;;
    enc <- on_tr_m (encrypt_master_key_m E (fst mk) key_new nonce a) ;;
    if snd mk <? List.length slots then
      thru (rewrite_header h (replace_nth (snd mk) (mkSlot ha enc nonce salt) slots))
    else panic)).

(** delete.rs lines 18-65 *)
Definition key_delete_m (E : env) (old : bytes) : M (world * memory) key_error unit :=
  i <- alloc Key old ;;
  owning_protected i
  (hs <- thru open_header ;;
   let '(h, slots) := hs in
   let a := ht_algorithm (h_type h) in
   mk <- on_tr_m (decrypt_v5_master_key_with_index_m E slots i old a) ;;
   if snd mk <? List.length slots then thru (rewrite_header h (remove_nth (snd mk) slots))
   else panic).

(** verify.rs lines 19-43 *)
Definition key_verify_m (E : env) (raw_key : bytes) : M (world * memory) key_error unit :=
  i <- alloc Key raw_key ;;
  owning_protected i
  (ha <- thru (map_err (fun _ => KHeaderDeserialize) (on_in deserialize)) ;;
   let h := fst ha in
   if below_v5 (ht_version (h_type h)) then err KUnsupported
   else
     match h_keyslots h with
     | None => panic
     | Some slots =>
         on_tr_m (decrypt_v5_master_key_with_index_m E slots i raw_key
                    (ht_algorithm (h_type h))) ;;
         ret tt
     end).

(** ** volaris-tools/src/hash.rs *)

(** hash.rs lines 41-51 *)
Fixpoint hash_loop_m (H : hasher) (fuel bs i : nat) (h : hr_state H)
  : M (dev * memory) hash_error (hr_state H) :=
  match fuel with
  | O => diverge
  | S fuel' =>
      got <- thru (map_err (fun _ => HashReadData) (dev_read bs)) ;;
      fill i got ;;
      let h' := hr_write H got h in
      if List.length got =? bs then hash_loop_m H fuel' bs i h' else ret h'
  end.

(** hash.rs lines 33-54; the buffer is not wiped *)
Definition hash_execute_m (H : hasher) (bs : nat) (h : hr_state H)
  : M (dev * memory) hash_error string :=
  thru (map_err (fun _ => HashResetCursorPosition) dev_rewind) ;;
  i <- alloc Plain (zeros bs) ;;
  owning i (fun d => (h' <- hash_loop_m H (S (List.length (d_data (fst d)))) bs i h ;;
                      ret (hr_finish H h')) d).
