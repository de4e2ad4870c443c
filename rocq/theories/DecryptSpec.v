(** Specification vocabulary: what the bytes behind a header decrypt to. *)
From Coq Require Import List Arith NArith.
From Verif Require Import Bytes Primitives Crypto Header IOSpec StreamSpec.
Import ListNotations.
Local Open Scope nat_scope.

(** [ct] is an encryption of [p]: in one piece in memory mode, block by block, with no
    more blocks than the counter can count, in stream mode. *)
Definition opens (E : env) (a : algorithm) (m : mode) (key nonce aad ct p : bytes) : Prop :=
  match m with
  | MemoryMode => aead_dec E a key nonce aad ct = Some p
  | StreamMode => is_plaintext E a key nonce aad BLOCK_SIZE ct p
                  /\ (N.of_nat (length ct / (BLOCK_SIZE + 16)) <= counter_max E)%N
  end.

(** The body [ct] behind header [h] with associated data [aad] is an encryption of [p]
    under master key [mk]. *)
Definition body_opens (E : env) (h : header) (aad mk ct p : bytes) : Prop :=
  opens E (ht_algorithm (h_type h)) (ht_mode (h_type h)) mk (h_nonce h) aad ct p.

(** The headers of the versions that are no longer written: tag, salt, nonce and
    unused bytes, 64 bytes in all. *)
Inductive old_version := Old1 | Old2 | Old3.
Definition nonce_size (a : algorithm) (m : mode) : nat :=
  match a, m with
  | XChaCha20Poly1305, MemoryMode => 24 | XChaCha20Poly1305, StreamMode => 20
  | Aes256Gcm, MemoryMode => 12 | Aes256Gcm, StreamMode => 8
  | DeoxysII256, MemoryMode => 15 | DeoxysII256, StreamMode => 11
  end.
Definition old_tag (v : old_version) (a : algorithm) (m : mode) : bytes :=
  [xde; match v with Old1 => x01 | Old2 => x02 | Old3 => x03 end;
   x0e; match a with XChaCha20Poly1305 => x01 | Aes256Gcm => x02 | DeoxysII256 => x03 end;
   x0c; match m with StreamMode => x01 | MemoryMode => x02 end].
Definition old_header (v : old_version) (a : algorithm) (m : mode) (salt nonce u1 u2 hdr : bytes) : Prop :=
  length salt = 16 /\ length nonce = nonce_size a m /\ length u1 = 16 /\ length hdr = 64
  /\ match v with
     | Old2 => hdr = old_tag v a m ++ salt ++ nonce ++ u2 ++ u1
     | _ => hdr = old_tag v a m ++ salt ++ u1 ++ nonce ++ u2
     end.

(** The key is the hash of the password: Argon2id with 8 MiB or 256 MiB, 8 or 10 passes
    and 4 lanes. *)
Definition old_key (E : env) (v : old_version) (pw salt : bytes) : option bytes :=
  match v with
  | Old1 => argon2id E 8192 8 4 pw salt
  | Old2 => argon2id E 262144 8 4 pw salt
  | Old3 => argon2id E 262144 10 4 pw salt
  end.

(** Version 3 authenticates the header. *)
Definition old_aad (v : old_version) (hdr : bytes) : bytes :=
  match v with Old3 => hdr | _ => [] end.
