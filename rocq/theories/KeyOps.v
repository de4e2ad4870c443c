(** crates/volaris-tools/src/key.rs and src/key/{add,change,delete,verify}.rs.
    The handle is [w_in]. *)
From Coq Require Import List Arith NArith ZArith.
From Verif Require Import Bytes Outcome IO Primitives Crypto Header KeyModel.
Local Open Scope nat_scope.

(** key.rs lines 15-26.  [HeaderSizeParse] cannot occur: the size is one of
    three constants (conversion of u64 416 to i64). *)
Inductive key_error :=
| KUnsupported | KIncorrectKey | KMasterKeyEncrypt | KTooManyKeyslots
| KKeyHash | KCipherInit | KHeaderDeserialize | KHeaderWrite | KSeek.

(** key.rs lines 58-80: returns the (possibly still zero) master key and index.
    [hash] and [initialize] errors abort; a slot that does not decrypt is
    skipped. *)
Fixpoint search_keyslots (E : env) (a : algorithm) (raw_key : bytes) (i : nat)
  (l : list keyslot) : M trace key_error (bytes * nat) :=
  match l with
  | [] => ret (zeros MASTER_KEY_LEN, 0)
  | k :: l' =>
      key <- map_err (fun _ => KKeyHash)
               (lift (hash E (ks_hash k) raw_key (ks_salt k))) ;;
      c <- map_err (fun _ => KCipherInit) (lift (ciphers_initialize key a)) ;;
      fun tr =>
        match ciphers_decrypt E c (ks_nonce k) [] (ks_enc k) tr with
        | (Ok m, tr') => (Ok (vec_to_arr MASTER_KEY_LEN m, i), tr')
        | (Err _, tr') => search_keyslots E a raw_key (S i) l' tr'
        | (Panic, tr') => (Panic, tr')
        | (Diverge, tr') => (Diverge, tr')
        end
  end.

(** key.rs lines 49-89 *)
Definition decrypt_v5_master_key_with_index (E : env) (slots : list keyslot)
  (raw_key : bytes) (a : algorithm) : M trace key_error (bytes * nat) :=
  r <- search_keyslots E a raw_key 0 slots ;;
  if bytes_eqb (fst r) (zeros MASTER_KEY_LEN) then err KIncorrectKey
  else ret r.

(** key.rs lines 94-109 *)
Definition encrypt_master_key (E : env) (master_key key_new nonce : bytes)
  (a : algorithm) : M trace key_error bytes :=
  c <- map_err (fun _ => KCipherInit) (lift (ciphers_initialize key_new a)) ;;
  e <- map_err (fun _ => KMasterKeyEncrypt)
         (ciphers_encrypt E c nonce [] master_key) ;;
  ret (vec_to_arr ENCRYPTED_MASTER_KEY_LEN e).

(** [version < V5] (add.rs line 33, change.rs line 33, delete.rs line 25,
    verify.rs line 26; derived [PartialOrd], header.rs line 51) *)
Definition below_v5 (v : header_version) : bool :=
  match v with V5 => false | _ => true end.

(** add.rs lines 30-48, change.rs lines 30-48, delete.rs lines 22-40: parse the
    header, check the version, seek back, clone the keyslots *)
Definition open_header : M world key_error (header * list keyslot) :=
  ha <- map_err (fun _ => KHeaderDeserialize) (on_in deserialize) ;;
  let h := fst ha in
  if below_v5 (ht_version (h_type h)) then err KUnsupported
  else
    map_err (fun _ => KSeek)
      (on_in (dev_seek_back (get_size (ht_version (h_type h))))) ;;
    match h_keyslots h with
    | None => panic
    | Some slots => ret (h, slots)
    end.

(** add.rs lines 86-96, change.rs lines 80-90, delete.rs lines 52-62 *)
Definition rewrite_header (h : header) (slots : list keyslot)
  : M world key_error unit :=
  map_err (fun _ => KHeaderWrite)
    (on_in (header_write
              (mkHeader (h_type h) (h_nonce h) (h_salt h) (Some slots)))).

(** add.rs lines 26-99 *)
Definition key_add (E : env) (old new : bytes) (ha : hashing_algorithm)
  : M world key_error unit :=
  hs <- open_header ;;
  let '(h, slots) := hs in
  let a := ht_algorithm (h_type h) in
  mk <- on_tr (decrypt_v5_master_key_with_index E slots old a) ;;
  if length slots =? 4 then err KTooManyKeyslots
  else
    salt <- gen_salt ;;
    nonce <- gen_nonce a MemoryMode ;;
    key_new <- map_err (fun _ => KKeyHash) (lift (hash E ha new salt)) ;;
    enc <- on_tr (encrypt_master_key E (fst mk) key_new nonce a) ;;
    rewrite_header h (slots ++ [mkSlot ha enc nonce salt]).

(** [keyslots[index] = k] (change.rs line 72) *)
Fixpoint replace_nth {A} (n : nat) (x : A) (l : list A) : list A :=
  match l, n with
  | [], _ => []
  | _ :: l', O => x :: l'
  | y :: l', S n' => y :: replace_nth n' x l'
  end.

(** [Vec::remove(index)] (delete.rs line 49) *)
Fixpoint remove_nth {A} (n : nat) (l : list A) : list A :=
  match l, n with
  | [], _ => []
  | _ :: l', O => l'
  | y :: l', S n' => y :: remove_nth n' l'
  end.

(** change.rs lines 26-93; indexing out of bounds would panic *)
Definition key_change (E : env) (old new : bytes) (ha : hashing_algorithm)
  : M world key_error unit :=
  hs <- open_header ;;
  let '(h, slots) := hs in
  let a := ht_algorithm (h_type h) in
  mk <- on_tr (decrypt_v5_master_key_with_index E slots old a) ;;
  salt <- gen_salt ;;
  key_new <- map_err (fun _ => KKeyHash) (lift (hash E ha new salt)) ;;
  nonce <- gen_nonce a MemoryMode ;;
  enc <- on_tr (encrypt_master_key E (fst mk) key_new nonce a) ;;
  if snd mk <? length slots then
    rewrite_header h (replace_nth (snd mk) (mkSlot ha enc nonce salt) slots)
  else panic.

(** delete.rs lines 18-65; [Vec::remove] out of bounds would panic *)
Definition key_delete (E : env) (old : bytes) : M world key_error unit :=
  hs <- open_header ;;
  let '(h, slots) := hs in
  let a := ht_algorithm (h_type h) in
  mk <- on_tr (decrypt_v5_master_key_with_index E slots old a) ;;
  if snd mk <? length slots then rewrite_header h (remove_nth (snd mk) slots)
  else panic.

(** verify.rs lines 19-43 *)
Definition key_verify (E : env) (raw_key : bytes) : M world key_error unit :=
  ha <- map_err (fun _ => KHeaderDeserialize) (on_in deserialize) ;;
  let h := fst ha in
  if below_v5 (ht_version (h_type h)) then err KUnsupported
  else
    match h_keyslots h with
    | None => panic
    | Some slots =>
        on_tr (decrypt_v5_master_key_with_index E slots raw_key
                 (ht_algorithm (h_type h))) ;;
        ret tt
    end.
