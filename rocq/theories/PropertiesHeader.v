(** Header properties C01-C08
    (crates/volaris-crypto/src/header.rs).  Vocabulary: HeaderSpec.v. *)
From Coq Require Import List Arith NArith ZArith Lia.
From Verif Require Import Bytes Outcome IO Primitives Crypto Header.
From Verif Require Import HeaderSpec HeaderFacts HeaderProofs Samples.
Local Open Scope nat_scope.

(** A V5 header with two keyslots, AES-256-GCM, used in the examples. *)
Definition ex_slot (x : byte) (h : hashing_algorithm) : keyslot :=
  mkSlot h (repeat x 48) (repeat x 12) (repeat x 16).
Definition ex_header : header :=
  mkHeader (mkHT V5 Aes256Gcm StreamMode) [x01; x02; x03; x04; x05; x06; x07; x08]
    (Some (zeros 16))
    (Some [ex_slot x11 (Blake3Balloon 5); ex_slot x22 (Argon2id 3)]).

Example ex_header_wf : wf_header ex_header.
Proof.
  right. right. split; [reflexivity|]. split; [reflexivity|].
  eexists. split; [reflexivity|]. split; [cbn; lia|].
  repeat constructor; unfold known_hash; cbn; tauto.
Qed.

(** C01: serialize then deserialize gives the header back and stops right after
    it, whatever follows; on a reader with faults, success means the same. *)
Theorem C01_header_round_trip : forall h, wf_header h ->
  exists b, serialize h = Ok b /\
  forall d, at_cursor d b ->
    (d_plan d = [] ->
       exists h' aad, deserialize d = (Ok (h', aad), set_pos (d_pos d + length b) d)
                      /\ same_header h h')
    /\ (forall h' aad d', deserialize d = (Ok (h', aad), d') ->
          same_header h h' /\ d_data d' = d_data d /\ d_pos d' = d_pos d + length b).
Proof. exact header_round_trip. Qed.
Print Assumptions C01_header_round_trip.

Example C01_case : exists b, serialize ex_header = Ok b
  /\ exists aad, deserialize (mkDev (x77 :: b ++ [x78; x79]) 1 [] [])
                 = (Ok (ex_header, aad), mkDev (x77 :: b ++ [x78; x79]) 417 [] []).
Proof. eexists. split; [reflexivity|]. eexists. vm_compute. reflexivity. Qed.

(** C02: the writer's AAD is the reader's. *)
Theorem C02_aad_agreement : forall h b d h' aad' d',
  wf_header h -> serialize h = Ok b -> at_cursor d b ->
  deserialize d = (Ok (h', aad'), d') -> create_aad h = Ok aad'.
Proof. exact aad_agreement. Qed.
Print Assumptions C02_aad_agreement.

Example C02_case : exists b h' aad' d',
  serialize ex_header = Ok b /\ deserialize (dev_of b) = (Ok (h', aad'), d')
  /\ aad' = [xde; x05; x0e; x02; x0c; x01; x01; x02; x03; x04; x05; x06; x07; x08]
            ++ zeros 18.
Proof. do 4 eexists. split; [reflexivity|]. split; vm_compute; reflexivity. Qed.

(** C03: produced size = consumed size = [get_size]. *)
Theorem C03_header_size_exact :
  (forall h b, wf_header h -> serialize h = Ok b ->
     length b = get_size (ht_version (h_type h)))
  /\ (forall d h aad d', deserialize d = (Ok (h, aad), d') ->
        d_pos d' = d_pos d + get_size (ht_version (h_type h))
        /\ d_pos d' <= length (d_data d) /\ d_data d' = d_data d)
  /\ map get_size [V1; V2; V3; V4; V5] = [64; 64; 64; 128; 416].
Proof. exact header_size_exact. Qed.
Print Assumptions C03_header_size_exact.

Example C03_case : exists h aad d',
  deserialize (dev_of V4_ENCRYPTED_CONTENT) = (Ok (h, aad), d') /\ d_pos d' = 128.
Proof. do 3 eexists. split; vm_compute; reflexivity. Qed.

(** C04: the parser never panics and never loops, on any reader; on a
    well-behaved one it accepts exactly the readable byte strings. *)
Theorem C04_parser_total : forall d,
  (forall o d', deserialize d = (o, d') ->
     o <> Panic /\ o <> Diverge /\ d_data d' = d_data d /\ d_log d' = d_log d)
  /\ (d_plan d = [] ->
      forall t, (exists h aad d', deserialize d = (Ok (h, aad), d') /\ h_type h = t)
                <-> readable t (skipn (d_pos d) (d_data d))).
Proof. exact parser_total. Qed.
Print Assumptions C04_parser_total.

Example C04_case_accept :
  readable (mkHT V5 XChaCha20Poly1305 StreamMode) V5_ENCRYPTED_CONTENT.
Proof.
  apply (proj1 (proj2 (C04_parser_total (dev_of V5_ENCRYPTED_CONTENT)) eq_refl _)).
  do 3 eexists. split; vm_compute; reflexivity.
Qed.
Example C04_case_reject :
  (exists d', deserialize (dev_of (xde :: x06 :: V5_ENCRYPTED_CONTENT)) = (Err HBadVersion, d'))
  /\ (exists d', deserialize (dev_of (firstn 415 V5_ENCRYPTED_CONTENT)) = (Err HReadFull, d'))
  /\ (exists d', deserialize (dev_of (firstn 32 V5_ENCRYPTED_CONTENT ++ xdf :: zeros 400))
                 = (Err HBadKeyslot, d')).
Proof. repeat split; eexists; vm_compute; reflexivity. Qed.

(** C05: the AAD determines type, nonce and the bytes it covers; in particular
    headers of different versions never share one. *)
Theorem C05_aad_binds : forall d1 h1 aad d1' d2 h2 d2',
  deserialize d1 = (Ok (h1, aad), d1') ->
  deserialize d2 = (Ok (h2, aad), d2') ->
  ~ In (ht_version (h_type h1)) [V1; V2] ->
  ~ In (ht_version (h_type h2)) [V1; V2] ->
  let b1 := skipn (d_pos d1) (d_data d1) in
  let b2 := skipn (d_pos d2) (d_data d2) in
  h_type h1 = h_type h2 /\ h_nonce h1 = h_nonce h2
  /\ match ht_version (h_type h1) with
     | V3 => firstn 64 b1 = firstn 64 b2
     | V4 => slice 0 48 b1 = slice 0 48 b2
             /\ (let e := 96 + get_nonce_len (ht_algorithm (h_type h1)) MemoryMode in
                 slice e (128 - e) b1 = slice e (128 - e) b2)
     | V5 => firstn 32 b1 = firstn 32 b2
     | _ => False
     end.
Proof. exact aad_binds. Qed.
Print Assumptions C05_aad_binds.

(** Two different V5 files with a common AAD: the slots differ. *)
Example C05_case : exists h1 h2 aad d1' d2',
  deserialize (dev_of V5_ENCRYPTED_CONTENT) = (Ok (h1, aad), d1')
  /\ deserialize (dev_of (firstn 32 V5_ENCRYPTED_CONTENT ++ zeros 384)) = (Ok (h2, aad), d2')
  /\ h_keyslots h1 <> h_keyslots h2.
Proof.
  do 5 eexists. split; [vm_compute; reflexivity|]. split; [vm_compute; reflexivity|].
  discriminate.
Qed.

(** C06: re-serializing what was parsed keeps length and meaning, and every
    byte of a canonical header. *)
Theorem C06_reserialize : forall d h aad d',
  deserialize d = (Ok (h, aad), d') ->
  ~ In (ht_version (h_type h)) [V1; V2] ->
  let v := ht_version (h_type h) in
  let full := firstn (get_size v) (skipn (d_pos d) (d_data d)) in
  let a := ht_algorithm (h_type h) in
  let m := ht_mode (h_type h) in
  exists b, serialize h = Ok b /\ length b = length full
    /\ (forall e, d_plan e = [] -> at_cursor e b ->
          exists aad', deserialize e = (Ok (h, aad'), set_pos (d_pos e + length b) e))
    /\ (v = V3 -> canonical_v3 a m full -> b = full)
    /\ (v = V4 -> canonical_v4 a m full -> b = full)
    /\ (v = V5 -> canonical_v5 a m full -> b = full).
Proof. exact reserialize. Qed.
Print Assumptions C06_reserialize.

Example C06_case_v5 : canonical_v5 XChaCha20Poly1305 StreamMode (firstn 416 V5_ENCRYPTED_CONTENT).
Proof.
  split; [reflexivity|]. split; [reflexivity|]. exists 1. split; [lia|]. split.
  - intros i Hi. assert (i = 0) by lia. subst i. repeat split; reflexivity.
  - vm_compute. reflexivity.
Qed.
Example C06_case_v4 : canonical_v4 XChaCha20Poly1305 StreamMode (firstn 128 V4_ENCRYPTED_CONTENT).
Proof. repeat split; reflexivity. Qed.
(** A header that is not canonical (the identifier of slot 0 was zeroed, slot 1
    is in use): it is accepted, but bytes are not kept. *)
Example C06_case_hole : exists b h aad d' b',
  serialize ex_header = Ok b
  /\ deserialize (dev_of (firstn 32 b ++ zeros 96 ++ skipn 128 b)) = (Ok (h, aad), d')
  /\ serialize h = Ok b' /\ b' <> firstn 32 b ++ zeros 96 ++ skipn 128 b
  /\ h_keyslots h = Some [].
Proof.
  do 5 eexists. split; [reflexivity|]. split; [vm_compute; reflexivity|].
  split; [vm_compute; reflexivity|]. split; [vm_compute; discriminate|reflexivity].
Qed.

(** C07: V1 and V2 headers are never written. *)
Theorem C07_deprecated_never_written : forall h d,
  In (ht_version (h_type h)) [V1; V2] ->
  serialize h = Err HDeprecated /\ create_aad h = Err HDeprecated
  /\ header_write h d = (Err HDeprecated, d).
Proof. exact deprecated_never_written. Qed.
Print Assumptions C07_deprecated_never_written.

Example C07_case :
  let h := mkHeader (mkHT V2 Aes256Gcm MemoryMode) (zeros 12) (Some (zeros 16)) None in
  header_write h (mkDev [x01] 1 [EvShort 0] []) = (Err HDeprecated, mkDev [x01] 1 [EvShort 0] []).
Proof. reflexivity. Qed.

(** C08, as listed, is false: [hash_algorithm] carries an arbitrary i32, and a
    slot with an unlisted number is written with the identifier of an empty
    slot. *)
Theorem C08_slots_survive_refuted : exists h l b,
  ht_version (h_type h) = V5 /\ nonce_sized h /\ h_keyslots h = Some l
  /\ length l <= 4 /\ Forall (slot_sized (ht_algorithm (h_type h))) l
  /\ serialize h = Ok b
  /\ forall h' aad d', deserialize (dev_of b) = (Ok (h', aad), d') -> h_keyslots h' = Some [].
Proof.
  exists (mkHeader (mkHT V5 Aes256Gcm StreamMode) (zeros 8) None (Some [ex_slot x11 (Argon2id 4)])).
  do 2 eexists. split; [reflexivity|]. split; [reflexivity|]. split; [reflexivity|].
  split; [cbn; lia|]. split; [repeat constructor|]. split; [reflexivity|].
  intros h' aad d' H. vm_compute in H. inversion H. reflexivity.
Qed.
Print Assumptions C08_slots_survive_refuted.

(** What holds: the slots survive exactly when all of them carry one of the five
    known hashing parameters. *)
Theorem C08_slots_survive_partial : forall h l b,
  ht_version (h_type h) = V5 -> nonce_sized h -> h_keyslots h = Some l ->
  length l <= 4 -> Forall (slot_sized (ht_algorithm (h_type h))) l ->
  serialize h = Ok b ->
  (Forall (fun k => known_hash (ks_hash k)) l
   <-> exists h' aad d', deserialize (dev_of b) = (Ok (h', aad), d')
                         /\ h_keyslots h' = Some l).
Proof. exact slots_survive_iff. Qed.
Print Assumptions C08_slots_survive_partial.

Example C08_case : exists l, h_keyslots ex_header = Some l
  /\ Forall (slot_sized Aes256Gcm) l /\ Forall (fun k => known_hash (ks_hash k)) l
  /\ length l = 2.
Proof.
  eexists. split; [reflexivity|].
  split; [repeat constructor|]. split; [|reflexivity].
  repeat constructor; unfold known_hash; cbn; tauto.
Qed.
