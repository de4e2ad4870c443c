(** The cryptographic environment, and the thin wrappers of
    crates/volaris-crypto/src/{key,cipher}.rs around it. *)
From Coq Require Import List Arith NArith ZArith.
From Verif Require Import Bytes Outcome IO Primitives.
Local Open Scope nat_scope.

(** External cryptography, taken as an arbitrary environment: the AEADs of the
    aes-gcm, chacha20poly1305 and deoxys crates, Argon2id (argon2 crate; memory
    cost, iterations, parallelism, password, salt), balloon hashing
    (balloon-hash with blake3; space, time, parallelism) and the block counter
    limit of aead's [StreamLE31]. *)
Record env := mkEnv {
  aead_enc : algorithm -> bytes -> bytes -> bytes -> bytes -> option bytes;
  aead_dec : algorithm -> bytes -> bytes -> bytes -> bytes -> option bytes;
  argon2id : N -> N -> N -> bytes -> bytes -> option bytes;
  balloon  : N -> N -> N -> bytes -> bytes -> option bytes;
  counter_max : N
}.

(** What the theorems assume of it, where they do. *)
Record env_ok (E : env) : Prop := {
  (** decryption inverts encryption *)
  aead_correct : forall a k n ad m c,
    aead_enc E a k n ad m = Some c -> aead_dec E a k n ad c = Some m;
  (** 16-byte tag, no other expansion *)
  aead_length : forall a k n ad m c,
    aead_enc E a k n ad m = Some c -> length c = length m + 16;
  aead_dec_length : forall a k n ad m c,
    aead_dec E a k n ad c = Some m -> length c = length m + 16;
  (** encryption of at most one stream block with a short AAD succeeds *)
  aead_total : forall a k n ad m,
    length k = 32 -> length n = get_nonce_len a MemoryMode ->
    length ad <= 1000 -> length m <= BLOCK_SIZE ->
    aead_enc E a k n ad m <> None;
  (** KDF outputs fill a 32-byte array *)
  argon2id_length : forall m t p pw s k,
    argon2id E m t p pw s = Some k -> length k = 32;
  balloon_length : forall m t p pw s k,
    balloon E m t p pw s = Some k -> length k = 32;
  (** the counter leaves the top bit for the last-block flag *)
  counter_31 : (counter_max E < 2 ^ 31)%N
}.

(** header.rs lines 52-58. *)
Inductive header_version := V1 | V2 | V3 | V4 | V5.

(** header.rs lines 111-114; the payload is an i32. *)
Inductive hashing_algorithm := Argon2id (i : Z) | Blake3Balloon (i : Z).

(** key.rs lines 41-82.  Error messages are not distinguished. *)
Definition argon2id_hash (E : env) (raw_key salt : bytes) (v : header_version)
  : outcome unit bytes :=
  let run (o : option bytes) : outcome unit bytes :=
    match o with Some k => Ok k | None => Err tt end in
  match v with
  | V1 => run (argon2id E 8192 8 4 raw_key salt)
  | V2 => run (argon2id E 262144 8 4 raw_key salt)
  | V3 => run (argon2id E 262144 10 4 raw_key salt)
  | V4 | V5 => Err tt
  end.

(** key.rs lines 105-134. *)
Definition balloon_hash (E : env) (raw_key salt : bytes) (v : header_version)
  : outcome unit bytes :=
  let run (o : option bytes) : outcome unit bytes :=
    match o with Some k => Ok k | None => Err tt end in
  match v with
  | V1 | V2 | V3 => Err tt
  | V4 => run (balloon E 262144 1 1 raw_key salt)
  | V5 => run (balloon E 278528 1 1 raw_key salt)
  end.

(** header.rs lines 125-150. *)
Definition hash (E : env) (h : hashing_algorithm) (raw_key salt : bytes)
  : outcome unit bytes :=
  match h with
  | Argon2id i =>
      if Z.eqb i 1 then argon2id_hash E raw_key salt V1
      else if Z.eqb i 2 then argon2id_hash E raw_key salt V2
      else if Z.eqb i 3 then argon2id_hash E raw_key salt V3
      else Err tt
  | Blake3Balloon i =>
      if Z.eqb i 4 then balloon_hash E raw_key salt V4
      else if Z.eqb i 5 then balloon_hash E raw_key salt V5
      else Err tt
  end.

(** cipher.rs lines 32-36: an initialised AEAD. *)
Record ciphers := mkCiphers { ci_alg : algorithm; ci_key : bytes }.

(** cipher.rs lines 54-78: [new_from_slice] rejects keys that are not 32 bytes
    long. *)
Definition ciphers_initialize (key : bytes) (a : algorithm)
  : outcome unit ciphers :=
  if length key =? 32 then Ok (mkCiphers a key) else Err tt.

(** cipher.rs lines 83-93.  Converting a nonce slice of the wrong length into
    the AEAD's nonce array panics ([GenericArray::from_slice]). *)
Definition ciphers_encrypt (E : env) (c : ciphers) (nonce aad msg : bytes)
  : M trace unit bytes := fun tr =>
  if length nonce =? get_nonce_len (ci_alg c) MemoryMode then
    match aead_enc E (ci_alg c) (ci_key c) nonce aad msg with
    | Some ct =>
        (Ok ct, tr ++ [Sealed (mkCall (ci_alg c) (ci_key c) nonce aad msg ct)])
    | None => (Err tt, tr)
    end
  else (Panic, tr).

(** cipher.rs lines 113-123. *)
Definition ciphers_decrypt (E : env) (c : ciphers) (nonce aad ct : bytes)
  : M trace unit bytes := fun tr =>
  if length nonce =? get_nonce_len (ci_alg c) MemoryMode then
    match aead_dec E (ci_alg c) (ci_key c) nonce aad ct with
    | Some msg =>
        (Ok msg, tr ++ [Opened (mkCall (ci_alg c) (ci_key c) nonce aad msg ct)])
    | None => (Err tt, tr)
    end
  else (Panic, tr).
