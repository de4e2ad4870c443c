(** crates/volaris-crypto/src/stream.rs, on top of aead 0.5's [StreamLE31]. *)
From Coq Require Import List Arith NArith.
From Verif Require Import Bytes Outcome IO Primitives Crypto.
Local Open Scope nat_scope.

(** stream.rs lines 45-61: an [EncryptorLE31]/[DecryptorLE31]: the cipher, the
    nonce prefix, and the position of the next block. *)
Record stream := mkStream {
  s_alg : algorithm;
  s_key : bytes;
  s_prefix : bytes;
  s_pos : N
}.

(** aead crate, [StreamLE31::aead_nonce]: the nonce prefix followed by the
    little-endian u32 [position | (last_block << 31)]. *)
Definition le31_nonce (prefix : bytes) (pos : N) (last : bool) : bytes :=
  prefix ++ le32 (N.lor pos (N.shiftl (if last then 1 else 0) 31)).

(** stream.rs lines 88-131: the nonce length is checked, then the key. *)
Definition enc_stream_initialize (key nonce : bytes) (a : algorithm)
  : outcome unit stream :=
  let expect := match a with
                | Aes256Gcm => 8 | XChaCha20Poly1305 => 20 | DeoxysII256 => 11
                end in
  if negb (length nonce =? expect) then Err tt
  else if length key =? 32 then Ok (mkStream a key nonce 0)
  else Err tt.

(** stream.rs lines 266-297: no length check; the conversion of a nonce slice of
    the wrong length ([nonce.into()]) panics. *)
Definition dec_stream_initialize (key nonce : bytes) (a : algorithm)
  : outcome unit stream :=
  if length key =? 32 then
    if length nonce =? get_nonce_len a StreamMode
    then Ok (mkStream a key nonce 0)
    else Panic
  else Err tt.

(** aead crate, [Encryptor::encrypt_next]/[Decryptor::decrypt_next] refuse to
    go on at [COUNTER_MAX]; then advance the position. *)
Definition stream_seal (E : env) (s : stream) (last : bool) (aad msg : bytes)
  : M trace unit bytes := fun tr =>
  let nonce := le31_nonce (s_prefix s) (s_pos s) last in
  match aead_enc E (s_alg s) (s_key s) nonce aad msg with
  | Some ct =>
      (Ok ct, tr ++ [Sealed (mkCall (s_alg s) (s_key s) nonce aad msg ct)])
  | None => (Err tt, tr)
  end.

Definition stream_open (E : env) (s : stream) (last : bool) (aad ct : bytes)
  : M trace unit bytes := fun tr =>
  let nonce := le31_nonce (s_prefix s) (s_pos s) last in
  match aead_dec E (s_alg s) (s_key s) nonce aad ct with
  | Some msg =>
      (Ok msg, tr ++ [Opened (mkCall (s_alg s) (s_key s) nonce aad msg ct)])
  | None => (Err tt, tr)
  end.

Definition advance (s : stream) : stream :=
  mkStream (s_alg s) (s_key s) (s_prefix s) (s_pos s + 1).

(** stream.rs lines 136-145 *)
Definition encrypt_next (E : env) (s : stream) (aad msg : bytes)
  : M trace unit (bytes * stream) :=
  if N.eqb (s_pos s) (counter_max E) then err tt
  else ct <- stream_seal E s false aad msg ;; ret (ct, advance s).

(** stream.rs lines 150-159 *)
Definition encrypt_last (E : env) (s : stream) (aad msg : bytes)
  : M trace unit bytes := stream_seal E s true aad msg.

(** stream.rs lines 304-313 *)
Definition decrypt_next (E : env) (s : stream) (aad ct : bytes)
  : M trace unit (bytes * stream) :=
  if N.eqb (s_pos s) (counter_max E) then err tt
  else msg <- stream_open E s false aad ct ;; ret (msg, advance s).

(** stream.rs lines 320-329 *)
Definition decrypt_last (E : env) (s : stream) (aad ct : bytes)
  : M trace unit bytes := stream_open E s true aad ct.

(** Where a streaming run failed (the code uses anyhow strings). *)
Inductive stream_error := SRead | SCrypt | SWrite | SFlush.

(** stream.rs lines 194-230: the block loop of [encrypt_file], for block size
    [bs]. *)
Fixpoint encrypt_loop (E : env) (bs fuel : nat) (s : stream) (aad : bytes)
  : M world stream_error unit :=
  match fuel with
  | O => diverge
  | S fuel' =>
      buf <- map_err (fun _ => SRead) (on_in (dev_read bs)) ;;
      if length buf =? bs then
        cs <- map_err (fun _ => SCrypt) (on_tr (encrypt_next E s aad buf)) ;;
        map_err (fun _ => SWrite) (on_out (dev_write_all (fst cs))) ;;
        encrypt_loop E bs fuel' (snd cs) aad
      else
        ct <- map_err (fun _ => SCrypt) (on_tr (encrypt_last E s aad buf)) ;;
        map_err (fun _ => SWrite) (on_out (dev_write_all ct))
  end.

(** stream.rs lines 184-238, for block size [bs].  Zeroizing the buffer has no
    observable effect and is left out, as is the progress spinner. *)
Definition encrypt_file_bs (E : env) (bs : nat) (s : stream) (aad : bytes)
  : M world stream_error unit := fun w =>
  (encrypt_loop E bs (S (length (d_data (w_in w)))) s aad ;;
   map_err (fun _ => SFlush) (on_out dev_flush)) w.

(** stream.rs lines 362-397: the block loop of [decrypt_file]. *)
Fixpoint decrypt_loop (E : env) (bs fuel : nat) (s : stream) (aad : bytes)
  : M world stream_error unit :=
  match fuel with
  | O => diverge
  | S fuel' =>
      buf <- map_err (fun _ => SRead) (on_in (dev_read (bs + 16))) ;;
      if length buf =? bs + 16 then
        ms <- map_err (fun _ => SCrypt) (on_tr (decrypt_next E s aad buf)) ;;
        map_err (fun _ => SWrite) (on_out (dev_write_all (fst ms))) ;;
        decrypt_loop E bs fuel' (snd ms) aad
      else
        m <- map_err (fun _ => SCrypt) (on_tr (decrypt_last E s aad buf)) ;;
        map_err (fun _ => SWrite) (on_out (dev_write_all m))
  end.

(** stream.rs lines 352-405, for block size [bs]. *)
Definition decrypt_file_bs (E : env) (bs : nat) (s : stream) (aad : bytes)
  : M world stream_error unit := fun w =>
  (decrypt_loop E bs (S (length (d_data (w_in w)))) s aad ;;
   map_err (fun _ => SFlush) (on_out dev_flush)) w.

(** stream.rs line 193: the block size is [BLOCK_SIZE]. *)
Definition encrypt_file (E : env) := encrypt_file_bs E BLOCK_SIZE.
(** stream.rs line 361. *)
Definition decrypt_file (E : env) := decrypt_file_bs E BLOCK_SIZE.
