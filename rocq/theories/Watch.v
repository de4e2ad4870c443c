(** The programs of EncDec.v, KeyOps.v and Archive.v once more, keeping a list of what
    they tell their caller through the callbacks of a request, and of the expensive
    steps they take.  That they do what the programs they were made from do is C102. *)
From Coq Require Import List Arith NArith ZArith Ascii String.
From Verif Require Import Bytes Outcome IO Primitives Crypto Header Stream KeyModel EncDec KeyOps.
From Verif Require Import Overwrite Hash FS Erase Archive.
Import ListNotations.
Local Open Scope nat_scope.
Local Open Scope list_scope.

Inductive event :=
| HeaderTold (t : header_type)                        (* [on_decrypted_header] is called *)
| PathAsked (p : path)                                (* [on_zip_file] is called *)
| CountTold (n : nat)                                 (* [on_archive_info] is called *)
| Stretched (h : hashing_algorithm) (pw salt : bytes) (* a password is hashed *)
| Checked (n : nat).                                  (* an AEAD is asked to open [n] bytes *)

(** Meta-language: a step that notes nothing; one that only notes. *)
Definition plainly {S E A} (m : M S E A) : M (S * list event) E A :=
  zoom fst (fun s x => (s, snd x)) m.
Definition note {S E} (e : event) : M (S * list event) E unit :=
  modify (fun x => (fst x, snd x ++ [e])).
Definition on_tr_w {E A} (m : M (trace * list event) E A) : M (world * list event) E A :=
  fun x => let '(o, (t, l)) := m (w_tr (fst x), snd x) in
  (o, (mkWorld (w_in (fst x)) (w_out (fst x)) (w_hdr (fst x)) (w_rng (fst x)) t, l)).

(** volaris-crypto/src/header.rs lines 125-150 and key.rs lines 41-82, 105-134 *)
Definition hash_w {S} (E : env) (h : hashing_algorithm) (pw salt : bytes)
  : M (S * list event) unit bytes :=
  note (Stretched h pw salt) ;; lift (hash E h pw salt).
(** volaris-crypto/src/key.rs lines 41-82, called directly for old files (lines 148-156) *)
Definition argon2id_hash_w {S} (E : env) (pw salt : bytes) (v : header_version)
  : M (S * list event) unit bytes :=
  note (Stretched (Argon2id (match v with V1 => 1 | V2 => 2 | _ => 3 end)) pw salt) ;;
  lift (argon2id_hash E pw salt v).
(** cipher.rs lines 113-123 *)
Definition ciphers_decrypt_w (E : env) (c : ciphers) (nonce aad ct : bytes)
  : M (trace * list event) unit bytes :=
  note (Checked (List.length ct)) ;; plainly (ciphers_decrypt E c nonce aad ct).

(** volaris-crypto/src/key.rs lines 158-163 and 174-179 *)
Definition try_keyslot_w (E : env) (a : algorithm) (raw_key : bytes) (k : keyslot)
  : M (trace * list event) unit bytes :=
  key <- hash_w E (ks_hash k) raw_key (ks_salt k) ;;
  c <- lift (ciphers_initialize key a) ;;
  m <- ciphers_decrypt_w E c (ks_nonce k) [] (ks_enc k) ;;
  ret (vec_to_arr MASTER_KEY_LEN m).
(** volaris-crypto/src/key.rs lines 170-181 *)
Fixpoint find_keyslot_w (E : env) (a : algorithm) (raw_key : bytes) (l : list keyslot)
  : M (trace * list event) unit bytes :=
  match l with
  | [] => err tt
  | k :: l' => or_else (try_keyslot_w E a raw_key k)
                       (fun _ => find_keyslot_w E a raw_key l')
  end.
(** volaris-crypto/src/key.rs lines 144-184 *)
Definition decrypt_master_key_w (E : env) (raw_key : bytes) (h : header)
  : M (trace * list event) unit bytes :=
  match ht_version (h_type h) with
  | V1 | V2 | V3 =>
      match h_salt h with
      | None => err tt
      | Some salt => argon2id_hash_w E raw_key salt (ht_version (h_type h))
      end
  | V4 =>
      match h_keyslots h with
      | None | Some [] => err tt
      | Some (k :: _) => try_keyslot_w E (ht_algorithm (h_type h)) raw_key k
      end
  | V5 =>
      match h_keyslots h with
      | None => err tt
      | Some l => find_keyslot_w E (ht_algorithm (h_type h)) raw_key l
      end
  end.

(** volaris-crypto/src/stream.rs lines 362-397 *)
Fixpoint decrypt_loop_w (E : env) (bs fuel : nat) (s : stream) (aad : bytes)
  : M (world * list event) stream_error unit :=
  match fuel with
  | O => diverge
  | S fuel' =>
      buf <- plainly (map_err (fun _ => SRead) (on_in (dev_read (bs + 16)))) ;;
      note (Checked (List.length buf)) ;;
      if List.length buf =? bs + 16 then
        ms <- plainly (map_err (fun _ => SCrypt) (on_tr (decrypt_next E s aad buf))) ;;
        plainly (map_err (fun _ => SWrite) (on_out (dev_write_all (fst ms)))) ;;
        decrypt_loop_w E bs fuel' (snd ms) aad
      else
        m <- plainly (map_err (fun _ => SCrypt) (on_tr (decrypt_last E s aad buf))) ;;
        plainly (map_err (fun _ => SWrite) (on_out (dev_write_all m)))
  end.
(** volaris-crypto/src/stream.rs lines 352-405 *)
Definition decrypt_file_w (E : env) (bs : nat) (s : stream) (aad : bytes)
  : M (world * list event) stream_error unit := fun x =>
  (decrypt_loop_w E bs (S (List.length (d_data (w_in (fst x))))) s aad ;;
   plainly (map_err (fun _ => SFlush) (on_out dev_flush))) x.

(** volaris-tools/src/decrypt.rs lines 56-150, the callback of lines 96-98 included *)
Definition decrypt_execute_w (E : env) (bs : nat) (detached : bool) (raw_key : bytes)
  : M (world * list event) dec_error unit :=
  ha <- plainly (if detached then
           ha <- map_err (fun _ => DecDeserializeHeader) (on_hdr deserialize) ;;
           on_in (skip_empty_header (get_size (ht_version (h_type (fst ha))))) ;;
           ret ha
         else map_err (fun _ => DecDeserializeHeader) (on_in deserialize)) ;;
  let '(h, aad) := ha in
  let a := ht_algorithm (h_type h) in
  note (HeaderTold (h_type h)) ;;
  match ht_mode (h_type h) with
  | MemoryMode =>
      data <- plainly (map_err (fun _ => DecReadEncryptedData) (on_in dev_read_to_end)) ;;
      mk <- map_err (fun _ => DecDecryptMasterKey) (on_tr_w (decrypt_master_key_w E raw_key h)) ;;
      c <- map_err (fun _ => DecInitializeCiphers) (lift (ciphers_initialize mk a)) ;;
      m <- map_err (fun _ => DecDecryptData) (on_tr_w (ciphers_decrypt_w E c (h_nonce h) aad data)) ;;
      plainly (map_err (fun _ => DecWriteData) (on_out (dev_write_all m)))
  | StreamMode =>
      mk <- map_err (fun _ => DecDecryptMasterKey) (on_tr_w (decrypt_master_key_w E raw_key h)) ;;
      s <- map_err (fun _ => DecInitializeStreams)
             (lift (dec_stream_initialize mk (h_nonce h) a)) ;;
      map_err (fun _ => DecDecryptData) (decrypt_file_w E bs s aad)
  end.

(** volaris-tools/src/key.rs lines 58-80 *)
Fixpoint search_keyslots_w (E : env) (a : algorithm) (raw_key : bytes) (i : nat)
  (l : list keyslot) : M (trace * list event) key_error (bytes * nat) :=
  match l with
  | [] => ret (zeros MASTER_KEY_LEN, 0)
  | k :: l' =>
      key <- map_err (fun _ => KKeyHash) (hash_w E (ks_hash k) raw_key (ks_salt k)) ;;
      c <- map_err (fun _ => KCipherInit) (lift (ciphers_initialize key a)) ;;
      fun x =>
        match ciphers_decrypt_w E c (ks_nonce k) [] (ks_enc k) x with
        | (Ok m, x') => (Ok (vec_to_arr MASTER_KEY_LEN m, i), x')
        | (Err _, x') => search_keyslots_w E a raw_key (S i) l' x'
        | (Panic, x') => (Panic, x')
        | (Diverge, x') => (Diverge, x')
        end
  end.
(** volaris-tools/src/key.rs lines 49-89 *)
Definition decrypt_v5_master_key_with_index_w (E : env) (slots : list keyslot)
  (raw_key : bytes) (a : algorithm) : M (trace * list event) key_error (bytes * nat) :=
  r <- search_keyslots_w E a raw_key 0 slots ;;
  if bytes_eqb (fst r) (zeros MASTER_KEY_LEN) then err KIncorrectKey
  else ret r.

(** volaris-tools/src/key/add.rs lines 26-99 *)
Definition key_add_w (E : env) (old new : bytes) (ha : hashing_algorithm)
  : M (world * list event) key_error unit :=
  hs <- plainly open_header ;;
  let '(h, slots) := hs in
  let a := ht_algorithm (h_type h) in
  mk <- on_tr_w (decrypt_v5_master_key_with_index_w E slots old a) ;;
  if List.length slots =? 4 then err KTooManyKeyslots
  else
    salt <- plainly gen_salt ;;
    nonce <- plainly (gen_nonce a MemoryMode) ;;
    key_new <- map_err (fun _ => KKeyHash) (hash_w E ha new salt) ;;
    enc <- plainly (on_tr (encrypt_master_key E (fst mk) key_new nonce a)) ;;
    plainly (rewrite_header h (slots ++ [mkSlot ha enc nonce salt])).
(** volaris-tools/src/key/change.rs lines 26-93 *)
Definition key_change_w (E : env) (old new : bytes) (ha : hashing_algorithm)
  : M (world * list event) key_error unit :=
  hs <- plainly open_header ;;
  let '(h, slots) := hs in
  let a := ht_algorithm (h_type h) in
  mk <- on_tr_w (decrypt_v5_master_key_with_index_w E slots old a) ;;
  salt <- plainly gen_salt ;;
  key_new <- map_err (fun _ => KKeyHash) (hash_w E ha new salt) ;;
  nonce <- plainly (gen_nonce a MemoryMode) ;;
  enc <- plainly (on_tr (encrypt_master_key E (fst mk) key_new nonce a)) ;;
  if snd mk <? List.length slots then
    plainly (rewrite_header h (replace_nth (snd mk) (mkSlot ha enc nonce salt) slots))
  else panic.
(** volaris-tools/src/key/delete.rs lines 18-65 *)
Definition key_delete_w (E : env) (old : bytes) : M (world * list event) key_error unit :=
  hs <- plainly open_header ;;
  let '(h, slots) := hs in
  let a := ht_algorithm (h_type h) in
  mk <- on_tr_w (decrypt_v5_master_key_with_index_w E slots old a) ;;
  if snd mk <? List.length slots then plainly (rewrite_header h (remove_nth (snd mk) slots))
  else panic.
(** volaris-tools/src/key/verify.rs lines 19-43 *)
Definition key_verify_w (E : env) (raw_key : bytes) : M (world * list event) key_error unit :=
  ha <- plainly (map_err (fun _ => KHeaderDeserialize) (on_in deserialize)) ;;
  let h := fst ha in
  if below_v5 (ht_version (h_type h)) then err KUnsupported
  else
    match h_keyslots h with
    | None => panic
    | Some slots =>
        on_tr_w (decrypt_v5_master_key_with_index_w E slots raw_key
                   (ht_algorithm (h_type h))) ;;
        ret tt
    end.

(** volaris-tools/src/unpack.rs lines 83-152, the callbacks of lines 104-116 included.
    [on_zip_file] is called for one path after the other; when it panics
    ([ur_ask] is [None]) at which path is not modelled, and none is noted. *)
Definition unpack_archive_w (Z : zip_env) (sched : list nat) (req : unpack_request)
  (h : handle) : M (sys * list event) unpack_error handle := fun x =>
  let s := fst x in let l := snd x in
  let '((o, h1), s1) := run_handle (ow_dev dev_rewind) h s in
  match o with
  | Ok _ =>
      match z_decode Z (s_data s1 (h_ino h)) with
      | None => (Err UnOpenArchive, (s1, l))
      | Some zs =>
          let es := entities (ur_out req) zs in
          match ur_ask req (map fst es) with
          | None => (Panic, (s1, l))
          | Some answers =>
              let acc := accepted es answers in
              (plainly
                 (ts <- (fun s => let '(ts, s') := run_sched sched (mkdir_threads (ur_out req) acc) s in
                                  (Ok ts, s')) ;;
                  lift (join_all ts) ;;
                  extract_all (filter (fun e => negb (ent_is_dir e)) acc) ;;
                  ret h1))
              (s1, l ++ map (fun e => PathAsked (fst e)) es ++ [CountTold (List.length acc)])
          end
      end
  | Err _ => (Err UnResetCursorPosition, (s1, l))
  | Panic => (Panic, (s1, l))
  | Diverge => (Diverge, (s1, l))
  end.

Definition on_sys_w {E A} (m : M (sys * list event) E A) : M (asys * list event) E A :=
  fun x => let '(o, (s, l)) := m (fst (fst x), snd x) in (o, ((s, snd (fst x)), l)).

(** volaris-tools/src/unpack.rs lines 55-168 *)
Definition unpack_execute_w (E : env) (Z : zip_env) (pick : rng -> string * rng) (bs : nat)
  (sched : list nat) (req : unpack_request) : M (asys * list event) unpack_error unit :=
  tmp <- plainly (map_err UnStorage (on_sys (create_temp_file pick))) ;;
  match tmp with
  | EDir _ => panic
  | EFile h0 =>
      r <- (fun x =>
        let '((o, (_, h1)), a1) :=
          run_world (fun w =>
            let '(o, (w', l)) :=
              decrypt_execute_w E bs
                (match ur_hdr req with Some _ => true | None => false end)
                (ur_raw_key req) (w, snd x) in
            ((Ok (o, l) : outcome unit _), w'))
            (ur_in req) h0 (ur_hdr req) (fst x) in
        match o with
        | Ok (Ok _, l) => (Ok h1, (a1, l))
        | Ok (Err e, l) => (Err (UnDecrypt e), (a1, l))
        | Ok (Panic, l) => (Panic, (a1, l))
        | _ => (Diverge, (a1, match o with Ok (_, l) => l | _ => snd x end))
        end) ;;
      cap <- plainly (map_err UnStorage (on_sys (file_len (EFile r)))) ;;
      h2 <- on_sys_w (unpack_archive_w Z sched req r) ;;
      plainly (on_sys (map_err UnStorage (wipe_temp h2 cap 1)))
  end.
