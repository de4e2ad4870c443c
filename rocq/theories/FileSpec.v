(** Specification vocabulary for whole-file encryption. *)
From Coq Require Import List Arith NArith ZArith.
From Verif Require Import Bytes Outcome IO Primitives Crypto Header EncDec.
From Verif Require Import IOSpec HeaderSpec StreamSpec.
Local Open Scope nat_scope.

(** [n] bytes of the RNG stream from position [off]. *)
Definition draw (r : rng) (off n : nat) : bytes := map r (seq off n).

(** Keyslot [k] opens with password [pw] and contains [mk]. *)
Definition slot_opens (E : env) (a : algorithm) (pw : bytes) (k : keyslot)
  (mk : bytes) : Prop :=
  exists key, hash E (ks_hash k) pw (ks_salt k) = Ok key
    /\ aead_dec E a key (ks_nonce k) [] (ks_enc k) = Some mk.

(** Password [pw] gives master key [mk] for header [h]: the KDF output itself
    for V1-V3, the content of the first keyslot that opens for V4 and V5. *)
Definition unlocks (E : env) (pw : bytes) (h : header) (mk : bytes) : Prop :=
  match ht_version (h_type h) with
  | V4 | V5 =>
      exists l1 k l2, h_keyslots h = Some (l1 ++ k :: l2)
        /\ slot_opens E (ht_algorithm (h_type h)) pw k mk
        /\ forall k', In k' l1 -> forall m, ~ slot_opens E (ht_algorithm (h_type h)) pw k' m
  | v => exists salt, h_salt h = Some salt
                      /\ hash E (Argon2id match v with V1 => 1 | V2 => 2 | _ => 3 end)
                              pw salt = Ok mk
  end.

(** Two different KDF inputs with the same output. *)
Definition kdf_collision (E : env) (h1 : hashing_algorithm) (pw1 s1 : bytes)
  (h2 : hashing_algorithm) (pw2 s2 : bytes) : Prop :=
  (h1, pw1, s1) <> (h2, pw2, s2)
  /\ exists key, hash E h1 pw1 s1 = Ok key /\ hash E h2 pw2 s2 = Ok key.

(** Where decrypt::execute reads the header. *)
Definition header_source (detached : bool) (v : world) : dev :=
  if detached then w_hdr v else w_in v.

(** Number of AEAD openings needed to get the master key. *)
Definition key_openings (v : header_version) : nat :=
  match v with V4 | V5 => 1 | _ => 0 end.

(** A device that was at most repositioned. *)
Definition untouched (d d' : dev) : Prop :=
  d_data d' = d_data d /\ d_log d' = d_log d.

(** A request encrypt::execute can serve. *)
Definition supported (req : enc_request) : Prop :=
  In (ht_version (er_header_type req)) [V4; V5]
  /\ ht_mode (er_header_type req) = StreamMode
  /\ known_hash (er_hashing_algorithm req).

(** The body a run of encrypt::execute produced: all it sealed but the master key. *)
Definition body_of (w' : world) : bytes := concat (map c_ct (tl (sealed (w_tr w')))).
