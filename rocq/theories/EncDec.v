(** crates/volaris-tools/src/{encrypt,decrypt}.rs *)
From Coq Require Import List Arith NArith ZArith.
From Verif Require Import Bytes Outcome IO Primitives Crypto Header Stream KeyModel.
Local Open Scope nat_scope.

(** encrypt.rs lines 14-24 *)
Inductive enc_error :=
| EncResetCursorPosition | EncHashKey | EncEncryptMasterKey | EncEncryptFile
| EncWriteHeader | EncInitializeStreams | EncInitializeCiphers | EncCreateAad.

(** encrypt.rs lines 43-55, without the devices, which are in the world:
    [w_in] is [reader], [w_out] is [writer], [w_hdr] is [header_writer] when
    [er_detached] is set. *)
Record enc_request := mkEncReq {
  er_detached : bool;
  er_raw_key : bytes;
  er_header_type : header_type;
  er_hashing_algorithm : hashing_algorithm
}.

(** encrypt.rs lines 120-124 and 132-135: serialize, then one [write] *)
Definition write_header_to (h : header) : M dev enc_error unit :=
  b <- map_err (fun _ => EncWriteHeader) (lift (serialize h)) ;;
  map_err (fun _ => EncWriteHeader) (dev_write b) ;;
  ret tt.

(** encrypt.rs lines 57-150 *)
Definition encrypt_execute_bs (E : env) (bs : nat) (req : enc_request)
  : M world enc_error unit :=
  let t := er_header_type req in
  salt <- gen_salt ;;
  key <- map_err (fun _ => EncHashKey)
           (lift (hash E (er_hashing_algorithm req) (er_raw_key req) salt)) ;;
  cipher <- map_err (fun _ => EncInitializeCiphers)
              (lift (ciphers_initialize key (ht_algorithm t))) ;;
  master_key <- gen_master_key ;;
  mk_nonce <- gen_nonce (ht_algorithm t) MemoryMode ;;
  enc_key <- map_err (fun _ => EncEncryptMasterKey)
               (on_tr (ciphers_encrypt E cipher mk_nonce [] master_key)) ;;
  let slot := mkSlot (er_hashing_algorithm req)
                (vec_to_arr ENCRYPTED_MASTER_KEY_LEN enc_key) mk_nonce salt in
  nonce <- gen_nonce (ht_algorithm t) (ht_mode t) ;;
  streams <- map_err (fun _ => EncInitializeStreams)
               (lift (enc_stream_initialize master_key nonce (ht_algorithm t))) ;;
  let h := mkHeader t nonce None (Some [slot]) in
  map_err (fun _ => EncResetCursorPosition) (on_out dev_rewind) ;;
  (if er_detached req then
     map_err (fun _ => EncResetCursorPosition) (on_hdr dev_rewind) ;;
     on_hdr (write_header_to h)
   else on_out (write_header_to h)) ;;
  aad <- map_err (fun _ => EncCreateAad) (lift (create_aad h)) ;;
  map_err (fun _ => EncResetCursorPosition) (on_in dev_rewind) ;;
  map_err (fun _ => EncEncryptFile) (encrypt_file_bs E bs streams aad).

Definition encrypt_execute (E : env) := encrypt_execute_bs E BLOCK_SIZE.

(** decrypt.rs lines 14-23 *)
Inductive dec_error :=
| DecInitializeCiphers | DecInitializeStreams | DecDeserializeHeader
| DecReadEncryptedData | DecDecryptMasterKey | DecDecryptData | DecWriteData
| DecRewindDataReader.

(** decrypt.rs lines 66-88: after reading a detached header, skip a zeroed
    header area at the start of the content, if there is one.  An unexpected end
    of file is tolerated; the buffer then holds what was read followed by
    zeros. *)
Definition skip_empty_header (size : nat) : M dev dec_error unit :=
  b <- or_else (dev_read_exact size)
        (fun e => match fst e with
                  | EUnexpectedEof => ret (snd e ++ zeros (size - length (snd e)))
                  | _ => err DecReadEncryptedData
                  end) ;;
  if negb (all_zero b)
  then map_err (fun _ => DecRewindDataReader) dev_rewind
  else ret tt.

(** decrypt.rs lines 56-150.  [w_hdr] is [header_reader] when [detached];
    [on_decrypted_header] only observes the header type and is left out. *)
Definition decrypt_execute_bs (E : env) (bs : nat) (detached : bool)
  (raw_key : bytes) : M world dec_error unit :=
  ha <- (if detached then
           ha <- map_err (fun _ => DecDeserializeHeader) (on_hdr deserialize) ;;
           on_in (skip_empty_header (get_size (ht_version (h_type (fst ha))))) ;;
           ret ha
         else map_err (fun _ => DecDeserializeHeader) (on_in deserialize)) ;;
  let '(h, aad) := ha in
  let a := ht_algorithm (h_type h) in
  match ht_mode (h_type h) with
  | MemoryMode =>
      data <- map_err (fun _ => DecReadEncryptedData) (on_in dev_read_to_end) ;;
      mk <- map_err (fun _ => DecDecryptMasterKey)
              (on_tr (decrypt_master_key E raw_key h)) ;;
      c <- map_err (fun _ => DecInitializeCiphers) (lift (ciphers_initialize mk a)) ;;
      m <- map_err (fun _ => DecDecryptData)
             (on_tr (ciphers_decrypt E c (h_nonce h) aad data)) ;;
      map_err (fun _ => DecWriteData) (on_out (dev_write_all m))
  | StreamMode =>
      mk <- map_err (fun _ => DecDecryptMasterKey)
              (on_tr (decrypt_master_key E raw_key h)) ;;
      s <- map_err (fun _ => DecInitializeStreams)
             (lift (dec_stream_initialize mk (h_nonce h) a)) ;;
      map_err (fun _ => DecDecryptData) (decrypt_file_bs E bs s aad)
  end.

Definition decrypt_execute (E : env) := decrypt_execute_bs E BLOCK_SIZE.
