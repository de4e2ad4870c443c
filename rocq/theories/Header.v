(** crates/volaris-crypto/src/header.rs *)
From Coq Require Import List Arith NArith ZArith.
From Verif Require Import Bytes Outcome IO Primitives Crypto.
Local Open Scope nat_scope.

(** lines 78-82 *)
Record header_type := mkHT {
  ht_version : header_version;
  ht_algorithm : algorithm;
  ht_mode : mode
}.

(** lines 155-160 *)
Record keyslot := mkSlot {
  ks_hash : hashing_algorithm;
  ks_enc : bytes;     (* [u8; 48] *)
  ks_nonce : bytes;   (* Vec<u8> *)
  ks_salt : bytes     (* [u8; 16] *)
}.

(** lines 98-103 *)
Record header := mkHeader {
  h_type : header_type;
  h_nonce : bytes;
  h_salt : option bytes;
  h_keyslots : option (list keyslot)
}.

(** Errors of header functions.  The code uses [anyhow] strings no caller looks
    at; the constructors only serve readability. *)
Inductive hdr_error :=
| HReadVersion | HSeekBack | HBadVersion | HReadFull | HBadAlgorithm
| HBadMode | HTruncated | HBadKeyslot | HDeprecated | HNoSalt | HWrite.

(** lines 165-179 *)
Definition keyslot_serialize (k : keyslot) : bytes :=
  match ks_hash k with
  | Argon2id i =>
      if Z.eqb i 1 then [xdf; xa1]
      else if Z.eqb i 2 then [xdf; xa2]
      else if Z.eqb i 3 then [xdf; xa3]
      else [x00; x00]
  | Blake3Balloon i =>
      if Z.eqb i 4 then [xdf; xb4]
      else if Z.eqb i 5 then [xdf; xb5]
      else [x00; x00]
  end.

(** lines 200-223 *)
Definition serialize_version (v : header_version) : bytes :=
  match v with
  | V1 => [xde; x01] | V2 => [xde; x02] | V3 => [xde; x03]
  | V4 => [xde; x04] | V5 => [xde; x05]
  end.

(** lines 491-506 *)
Definition serialize_algorithm (a : algorithm) : bytes :=
  match a with
  | XChaCha20Poly1305 => [x0e; x01]
  | Aes256Gcm => [x0e; x02]
  | DeoxysII256 => [x0e; x03]
  end.

(** lines 511-522 *)
Definition serialize_mode (m : mode) : bytes :=
  match m with StreamMode => [x0c; x01] | MemoryMode => [x0c; x02] end.

(** lines 186-195, in the order in which every serializer emits it *)
Definition tag_bytes (t : header_type) : bytes :=
  serialize_version (ht_version t) ++ serialize_algorithm (ht_algorithm t)
  ++ serialize_mode (ht_mode t).

(** lines 636-642 *)
Definition get_size (v : header_version) : nat :=
  match v with V1 | V2 | V3 => 64 | V4 => 128 | V5 => 416 end.

(** Padding after the nonce: [26 - get_nonce_len(..)] (lines 529, 546, 570,
    662-666, 693-699).  Nonces are at most 24 bytes, so the usize subtraction
    never wraps. *)
Definition nonce_padding (t : header_type) : bytes :=
  zeros (26 - get_nonce_len (ht_algorithm t) (ht_mode t)).

(** lines 527-539; [self.salt.unwrap()] panics on [None] *)
Definition serialize_v3 (h : header) : outcome hdr_error bytes :=
  match h_salt h with
  | None => Panic
  | Some salt =>
      Ok (tag_bytes (h_type h) ++ salt ++ zeros 16 ++ h_nonce h
          ++ nonce_padding (h_type h))
  end.

(** lines 544-563; [keyslots.unwrap()] panics on [None], [keyslot[0]] on an
    empty vector *)
Definition serialize_v4 (h : header) : outcome hdr_error bytes :=
  match h_keyslots h with
  | None => Panic
  | Some [] => Panic
  | Some (k :: _) =>
      let salt := match h_salt h with Some s => s | None => ks_salt k end in
      Ok (tag_bytes (h_type h) ++ salt ++ h_nonce h ++ nonce_padding (h_type h)
          ++ ks_enc k ++ ks_nonce k
          ++ zeros (32 - get_nonce_len (ht_algorithm (h_type h)) MemoryMode))
  end.

(** body of the loop at lines 584-593 *)
Definition slot_bytes (a : algorithm) (k : keyslot) : bytes :=
  keyslot_serialize k ++ ks_enc k ++ ks_nonce k
  ++ zeros (24 - get_nonce_len a MemoryMode) ++ ks_salt k ++ zeros 6.

(** lines 568-600; [4 - keyslots.len()] underflows (panics) beyond four slots *)
Definition serialize_v5 (h : header) : outcome hdr_error bytes :=
  match h_keyslots h with
  | None => Panic
  | Some slots =>
      if length slots <=? 4 then
        Ok (tag_bytes (h_type h) ++ h_nonce h ++ nonce_padding (h_type h)
            ++ concat (map (slot_bytes (ht_algorithm (h_type h))) slots)
            ++ concat (repeat (zeros 96) (4 - length slots)))
      else Panic
  end.

(** lines 620-633 *)
Definition serialize (h : header) : outcome hdr_error bytes :=
  match ht_version (h_type h) with
  | V1 => Err HDeprecated
  | V2 => Err HDeprecated
  | V3 => serialize_v3 h
  | V4 => serialize_v4 h
  | V5 => serialize_v5 h
  end.

(** lines 651-703.  In the V4 case the argument of [unwrap_or] is evaluated
    first, so missing keyslots are an error, and an empty vector a panic, even
    if the header has a salt. *)
Definition create_aad (h : header) : outcome hdr_error bytes :=
  match ht_version (h_type h) with
  | V1 => Err HDeprecated
  | V2 => Err HDeprecated
  | V3 => serialize_v3 h
  | V4 =>
      match h_keyslots h with
      | None => Err HNoSalt
      | Some [] => Panic
      | Some (k :: _) =>
          let salt := match h_salt h with Some s => s | None => ks_salt k end in
          Ok (tag_bytes (h_type h) ++ salt ++ h_nonce h
              ++ nonce_padding (h_type h)
              ++ zeros (32 - get_nonce_len (ht_algorithm (h_type h)) MemoryMode))
      end
  | V5 => Ok (tag_bytes (h_type h) ++ h_nonce h ++ nonce_padding (h_type h))
  end.

(** lines 715-722: one [write] call, whose byte count is ignored *)
Definition header_write (h : header) : M dev hdr_error unit :=
  b <- lift (serialize h) ;;
  map_err (fun _ => HWrite) (dev_write b) ;;
  ret tt.

(** ** Parsing *)

(** [Cursor::read_exact] on the in-memory copy of the header (lines 281-448);
    the state is what is left of it *)
Definition take (n : nat) : M bytes hdr_error bytes := fun rest =>
  if n <=? length rest then (Ok (firstn n rest), skipn n rest)
  else (Err HTruncated, rest).

(** lines 261-268 *)
Definition parse_version (b : bytes) : option header_version :=
  if bytes_eqb b [xde; x01] then Some V1
  else if bytes_eqb b [xde; x02] then Some V2
  else if bytes_eqb b [xde; x03] then Some V3
  else if bytes_eqb b [xde; x04] then Some V4
  else if bytes_eqb b [xde; x05] then Some V5
  else None.

(** lines 291-296 *)
Definition parse_algorithm (b : bytes) : option algorithm :=
  if bytes_eqb b [x0e; x01] then Some XChaCha20Poly1305
  else if bytes_eqb b [x0e; x02] then Some Aes256Gcm
  else if bytes_eqb b [x0e; x03] then Some DeoxysII256
  else None.

(** lines 303-307 *)
Definition parse_mode (b : bytes) : option mode :=
  if bytes_eqb b [x0c; x01] then Some StreamMode
  else if bytes_eqb b [x0c; x02] then Some MemoryMode
  else None.

(** lines 430-437 *)
Definition parse_slot_id (b : bytes) : option hashing_algorithm :=
  if bytes_eqb b [xdf; xa1] then Some (Argon2id 1)
  else if bytes_eqb b [xdf; xa2] then Some (Argon2id 2)
  else if bytes_eqb b [xdf; xa3] then Some (Argon2id 3)
  else if bytes_eqb b [xdf; xb4] then Some (Blake3Balloon 4)
  else if bytes_eqb b [xdf; xb5] then Some (Blake3Balloon 5)
  else None.

(** lines 395-447: the loop body runs [iters] times; an identifier that does not
    start with 0xDF makes it [continue], having consumed two bytes only *)
Fixpoint parse_slots (iters : nat) (nl : nat) (acc : list keyslot)
  : M bytes hdr_error (list keyslot) :=
  match iters with
  | O => ret acc
  | S iters' =>
      id <- take 2 ;;
      if negb (bytes_eqb (firstn 1 id) [xdf]) then parse_slots iters' nl acc
      else
        enc <- take 48 ;;
        nonce <- take nl ;;
        take (24 - nl) ;;
        salt <- take SALT_LEN ;;
        take 6 ;;
        h <- lift_opt HBadKeyslot (parse_slot_id id) ;;
        parse_slots iters' nl (acc ++ [mkSlot h enc nonce salt])
  end.

(** lines 316-451: the version-dependent fields, returned as
    (salt, nonce, keyslots) *)
Definition parse_fields (t : header_type)
  : M bytes hdr_error (bytes * bytes * option (list keyslot)) :=
  let nonce_len := get_nonce_len (ht_algorithm t) (ht_mode t) in
  let mk_len := get_nonce_len (ht_algorithm t) MemoryMode in
  match ht_version t with
  | V1 | V3 =>
      salt <- take 16 ;;
      take 16 ;;
      nonce <- take nonce_len ;;
      take (26 - nonce_len) ;;
      ret (salt, nonce, None)
  | V2 =>
      salt <- take 16 ;;
      nonce <- take nonce_len ;;
      take (26 - nonce_len) ;;
      take 16 ;;
      ret (salt, nonce, None)
  | V4 =>
      salt <- take 16 ;;
      nonce <- take nonce_len ;;
      take (26 - nonce_len) ;;
      enc <- take 48 ;;
      mk_nonce <- take mk_len ;;
      take (32 - mk_len) ;;
      ret (salt, nonce, Some [mkSlot (Blake3Balloon 4) enc mk_nonce salt])
  | V5 =>
      nonce <- take nonce_len ;;
      take (26 - nonce_len) ;;
      slots <- parse_slots 4 mk_len [] ;;
      ret (zeros 16, nonce, Some slots)
  end.

(** lines 453-475: the AAD, from the raw header bytes *)
Definition parse_aad (t : header_type) (full : bytes) : bytes :=
  match ht_version t with
  | V1 | V2 => []
  | V3 => full
  | V4 => firstn 48 full
          ++ skipn (96 + get_nonce_len (ht_algorithm t) MemoryMode) full
  | V5 => firstn 32 full
  end.

(** lines 281-485: everything done on the in-memory copy [full] of the header *)
Definition parse_header (v : header_version) (full : bytes)
  : outcome hdr_error (header * bytes) :=
  fst ((a <- take 2 ;;
        alg <- lift_opt HBadAlgorithm (parse_algorithm a) ;;
        m <- take 2 ;;
        md <- lift_opt HBadMode (parse_mode m) ;;
        let t := mkHT v alg md in
        f <- parse_fields t ;;
        let '(salt, nonce, slots) := f in
        ret (mkHeader t nonce (Some salt) slots, parse_aad t full))
       (skipn 2 full)).

(** lines 252-486 *)
Definition deserialize : M dev hdr_error (header * bytes) :=
  vb <- map_err (fun _ => HReadVersion) (dev_read_exact 2) ;;
  map_err (fun _ => HSeekBack) (dev_seek_back 2) ;;
  v <- lift_opt HBadVersion (parse_version vb) ;;
  full <- map_err (fun _ => HReadFull) (dev_read_exact (get_size v)) ;;
  lift (parse_header v full).
