(** Specification vocabulary: what an error of decrypt and of the key operations says. *)
From Coq Require Import List Arith NArith ZArith.
From Verif Require Import Bytes Outcome IO Primitives Crypto Header EncDec KeyOps.
From Verif Require Import IOSpec FileSpec KeySpec DecryptSpec.
Import ListNotations.
Local Open Scope nat_scope.

(** No header can be read. *)
Definition headless (d : dev) : Prop := forall h aad d', deserialize d <> (Ok (h, aad), d').

(** What has happened when decrypt reports [e].  [d2] is the input behind the header, or
    behind the room for one. *)
Definition dec_cause (E : env) (detached : bool) (pw : bytes) (v : world) (e : dec_error) : Prop :=
  match e with
  | DecDeserializeHeader => headless (header_source detached v)
  | DecDecryptMasterKey =>
      exists h aad d1, deserialize (header_source detached v) = (Ok (h, aad), d1)
        /\ forall mk, ~ unlocks E pw h mk
  | DecDecryptData =>
      exists h aad d1 d2 mk, deserialize (header_source detached v) = (Ok (h, aad), d1)
        /\ d_data d2 = d_data (w_in v) /\ (detached = false -> d2 = d1)
        /\ unlocks E pw h mk
        /\ ((forall p, ~ body_opens E h aad mk (rest d2) p)
            \/ ht_mode (h_type h) = StreamMode /\ (d_plan d2 <> [] \/ d_plan (w_out v) <> []))
  | DecWriteData =>
      exists h aad d1 d2 mk p, deserialize (header_source detached v) = (Ok (h, aad), d1)
        /\ d_data d2 = d_data (w_in v) /\ (detached = false -> d2 = d1)
        /\ unlocks E pw h mk /\ body_opens E h aad mk (rest d2) p
        /\ ht_mode (h_type h) = MemoryMode /\ d_plan (w_out v) <> []
  | DecReadEncryptedData => d_plan (w_in v) <> []
  | DecRewindDataReader => detached = true /\ d_plan (w_in v) <> []
  | DecInitializeCiphers | DecInitializeStreams => False
  end.

Definition old_password (op : key_op) : bytes :=
  match op with OpAdd old _ _ | OpChange old _ _ | OpDelete old | OpVerify old => old end.
Definition new_password (op : key_op) : option (bytes * hashing_algorithm) :=
  match op with OpAdd _ new ha | OpChange _ new ha => Some (new, ha) | _ => None end.

(** The old password opens a keyslot, and the first that it opens holds a key that is not
    all zeros. *)
Definition known (E : env) (pw : bytes) (h : header) (slots : list keyslot) : Prop :=
  exists i mk, first_open E (ht_algorithm (h_type h)) pw slots i mk /\ mk <> zeros 32.

(** What has happened when a key operation reports [e]. *)
Definition key_cause (E : env) (op : key_op) (w : world) (e : key_error) : Prop :=
  match e with
  | KHeaderDeserialize => headless (w_in w)
  | KUnsupported =>
      exists h aad d1, deserialize (w_in w) = (Ok (h, aad), d1) /\ ht_version (h_type h) <> V5
  | KIncorrectKey =>
      exists h slots, v5_header (w_in w) h slots /\ ~ known E (old_password op) h slots
  | KTooManyKeyslots =>
      exists h slots old new ha, op = OpAdd old new ha /\ v5_header (w_in w) h slots
        /\ known E old h slots /\ length slots = 4
  | KKeyHash =>
      exists h slots, v5_header (w_in w) h slots
        /\ ((exists k, In k slots /\ hash E (ks_hash k) (old_password op) (ks_salt k) = Err tt)
            \/ known E (old_password op) h slots
               /\ exists new ha salt, new_password op = Some (new, ha) /\ hash E ha new salt = Err tt)
  | KHeaderWrite | KSeek => d_plan (w_in w) <> []
  | KMasterKeyEncrypt | KCipherInit => False
  end.
