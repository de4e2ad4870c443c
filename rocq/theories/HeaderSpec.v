(** Specification vocabulary for headers (format of
    crates/volaris-crypto/src/header.rs lines 78-160 and 527-600), stated by
    offsets and lengths, without reference to the parser or serializers of the
    model. *)
From Coq Require Import List Arith NArith ZArith.
From Verif Require Import Bytes IO Primitives Crypto Header.
Local Open Scope nat_scope.

(** [len] bytes at offset [off]. *)
Definition slice (off len : nat) (l : bytes) : bytes := firstn len (skipn off l).

(** The hashing parameters a keyslot can record. *)
Definition known_hash (h : hashing_algorithm) : Prop :=
  In h [Argon2id 1; Argon2id 2; Argon2id 3; Blake3Balloon 4; Blake3Balloon 5].

(** Field lengths as fixed by Rust's array types and the algorithm. *)
Definition slot_sized (a : algorithm) (k : keyslot) : Prop :=
  length (ks_enc k) = 48
  /\ length (ks_nonce k) = get_nonce_len a MemoryMode
  /\ length (ks_salt k) = 16.

Definition slot_wf (a : algorithm) (k : keyslot) : Prop :=
  slot_sized a k /\ known_hash (ks_hash k).

Definition nonce_sized (h : header) : Prop :=
  length (h_nonce h) = get_nonce_len (ht_algorithm (h_type h)) (ht_mode (h_type h)).

(** A V3 header: a salt, no keyslots. *)
Definition wf_v3 (h : header) : Prop :=
  ht_version (h_type h) = V3 /\ nonce_sized h /\ h_keyslots h = None
  /\ exists s, h_salt h = Some s /\ length s = 16.

(** A V4 header: one keyslot, whose salt is also the header's. *)
Definition wf_v4 (h : header) : Prop :=
  ht_version (h_type h) = V4 /\ nonce_sized h
  /\ exists k, h_keyslots h = Some [k] /\ slot_sized (ht_algorithm (h_type h)) k
       /\ ks_hash k = Blake3Balloon 4
       /\ (h_salt h = None \/ h_salt h = Some (ks_salt k)).

(** A V5 header: at most four keyslots; the header's own salt is unused. *)
Definition wf_v5 (h : header) : Prop :=
  ht_version (h_type h) = V5 /\ nonce_sized h
  /\ exists l, h_keyslots h = Some l /\ length l <= 4
       /\ Forall (slot_wf (ht_algorithm (h_type h))) l.

Definition wf_header (h : header) : Prop := wf_v3 h \/ wf_v4 h \/ wf_v5 h.

(** Same header up to the fields the format does not record: the V4 header salt
    is the keyslot's; the V5 header salt does not exist. *)
Definition same_header (a b : header) : Prop :=
  h_type a = h_type b /\ h_nonce a = h_nonce b /\ h_keyslots a = h_keyslots b
  /\ (ht_version (h_type a) = V3 -> h_salt a = h_salt b).

(** ** Which byte strings are headers *)

Definition version_tag (v : header_version) : byte :=
  match v with V1 => x01 | V2 => x02 | V3 => x03 | V4 => x04 | V5 => x05 end.
Definition algorithm_tag (a : algorithm) : byte :=
  match a with XChaCha20Poly1305 => x01 | Aes256Gcm => x02 | DeoxysII256 => x03 end.
Definition mode_tag (m : mode) : byte :=
  match m with StreamMode => x01 | MemoryMode => x02 end.

(** The keyslot area, as it is scanned: [n] more identifiers are looked at; one
    starting with 0xDF must be known and owns 96 bytes, any other is passed over
    (two bytes). *)
Inductive slots_readable : nat -> bytes -> Prop :=
| sr_done : forall l, slots_readable 0 l
| sr_pass : forall n x y l, x <> xdf -> slots_readable n l ->
    slots_readable (S n) (x :: y :: l)
| sr_slot : forall n y l, In y [xa1; xa2; xa3; xb4; xb5] ->
    slots_readable n (skipn 94 l) -> slots_readable (S n) (xdf :: y :: l).

(** A byte string that starts with a readable header of the given type. *)
Definition readable (t : header_type) (l : bytes) : Prop :=
  (exists rest, l = [xde; version_tag (ht_version t); x0e;
                     algorithm_tag (ht_algorithm t); x0c; mode_tag (ht_mode t)]
                    ++ rest)
  /\ get_size (ht_version t) <= length l
  /\ (ht_version t = V5 -> slots_readable 4 (skipn 32 (firstn 416 l))).

(** ** Canonical V5 headers: all padding zero, slots packed at the front *)
Definition canonical_v5 (a : algorithm) (m : mode) (l : bytes) : Prop :=
  length l = 416
  /\ slice (6 + get_nonce_len a m) (26 - get_nonce_len a m) l
     = zeros (26 - get_nonce_len a m)
  /\ exists k, k <= 4
     /\ (forall i, i < k ->
           slice (32 + 96 * i) 1 l = [xdf]
           /\ slice (32 + 96 * i + 50 + get_nonce_len a MemoryMode)
                    (24 - get_nonce_len a MemoryMode) l
              = zeros (24 - get_nonce_len a MemoryMode)
           /\ slice (32 + 96 * i + 90) 6 l = zeros 6)
     /\ skipn (32 + 96 * k) l = zeros (416 - (32 + 96 * k)).

(** Canonical V3 and V4 headers: all padding zero. *)
Definition canonical_v3 (a : algorithm) (m : mode) (l : bytes) : Prop :=
  length l = 64
  /\ slice 22 16 l = zeros 16
  /\ slice (38 + get_nonce_len a m) (26 - get_nonce_len a m) l
     = zeros (26 - get_nonce_len a m).

Definition canonical_v4 (a : algorithm) (m : mode) (l : bytes) : Prop :=
  length l = 128
  /\ slice (22 + get_nonce_len a m) (26 - get_nonce_len a m) l
     = zeros (26 - get_nonce_len a m)
  /\ skipn (96 + get_nonce_len a MemoryMode) l
     = zeros (32 - get_nonce_len a MemoryMode).

(** The cursor of [d] stands on the bytes [b]. *)
Definition at_cursor (d : dev) (b : bytes) : Prop :=
  exists tail, skipn (d_pos d) (d_data d) = b ++ tail.
