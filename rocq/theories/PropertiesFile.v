(** Whole-file properties C17-C25
    (crates/volaris-tools/src/{encrypt,decrypt}.rs).  Vocabulary: IOSpec.v,
    HeaderSpec.v, StreamSpec.v, FileSpec.v.  [encrypt_execute] and
    [decrypt_execute] use the real block size; examples with several blocks run
    the same model with a small one. *)
From Coq Require Import List Arith NArith ZArith Bool.
From Verif Require Import Bytes Outcome IO Primitives Crypto Header EncDec.
From Verif Require Import IOSpec HeaderSpec StreamSpec FileSpec FileProofs.
From Verif Require Import ToyEnv Fixtures FileCases.
Local Open Scope nat_scope.

(** C17: encryption succeeds on well-behaved devices whenever the KDF accepts the
    password and the blocks can be counted, and decryption of the file with the
    same password, from any position of any reader, writes the original. *)
Theorem C17_file_round_trip : forall E req w key,
  env_ok E ->
  let p := d_data (w_in w) in
  ht_version (er_header_type req) = V5 -> ht_mode (er_header_type req) = StreamMode ->
  er_detached req = false ->
  d_plan (w_in w) = [] -> d_plan (w_out w) = [] ->
  hash E (er_hashing_algorithm req) (er_raw_key req) (draw (w_rng w) 0 16) = Ok key ->
  (N.of_nat (length p / BLOCK_SIZE) <= counter_max E)%N ->
  exists w' file,
    encrypt_execute E req w = (Ok tt, w')
    /\ wrote (set_pos 0 (w_out w)) (w_out w') file
    /\ (d_data (w_out w) = [] -> d_data (w_out w') = file)
    /\ forall v, d_plan (w_in v) = [] -> d_plan (w_out v) = [] -> rest (w_in v) = file ->
         exists v', decrypt_execute E false (er_raw_key req) v = (Ok tt, v')
           /\ wrote (w_out v) (w_out v') p.
Proof. exact file_round_trip_v5. Qed.
Print Assumptions C17_file_round_trip.

Example C17_case :
  let f := enc_file toy 4 (ex_req V5 (Argon2id 3)) ex_text in
  length f = 416 + 9 + 3 * 16
  /\ ok_out (decrypt_execute_bs toy 4 false ex_pw (io_world f)) = Some ex_text
  /\ ok_out (decrypt_execute_bs toy 4 false (x00 :: ex_pw) (io_world f)) = None.
Proof. vm_compute. repeat split. Qed.

(** C18 refuted: with a body that starts like an empty header area, decryption
    skips those bytes.  Here a body of 16 zeros. *)
Theorem C18_detached_round_trip_refuted :
  exists E req w w' v,
    env_ok E /\ ht_version (er_header_type req) = V5 /\ ht_mode (er_header_type req) = StreamMode
    /\ er_detached req = true
    /\ d_plan (w_in w) = [] /\ d_plan (w_out w) = [] /\ d_plan (w_hdr w) = []
    /\ encrypt_execute E req w = (Ok tt, w')
    /\ w_in v = dev_of (d_data (w_out w')) /\ w_hdr v = dev_of (d_data (w_hdr w'))
    /\ w_out v = dev_of []
    /\ fst (decrypt_execute E true (er_raw_key req) v) = Err DecDecryptData.
Proof. exact detached_not_restored. Qed.
Print Assumptions C18_detached_round_trip_refuted.

(** C18, what holds: the body is free of header bytes, and decryption with the
    detached header restores the content unless the first 416 bytes of the body
    are all zero; a body behind a zeroed header area is always restored. *)
Theorem C18_detached_round_trip_partial : forall E req w key,
  env_ok E ->
  let p := d_data (w_in w) in
  ht_version (er_header_type req) = V5 -> ht_mode (er_header_type req) = StreamMode ->
  er_detached req = true ->
  d_plan (w_in w) = [] -> d_plan (w_out w) = [] -> d_plan (w_hdr w) = [] ->
  hash E (er_hashing_algorithm req) (er_raw_key req) (draw (w_rng w) 0 16) = Ok key ->
  (N.of_nat (length p / BLOCK_SIZE) <= counter_max E)%N ->
  exists w' hdr body,
    encrypt_execute E req w = (Ok tt, w')
    /\ wrote (set_pos 0 (w_out w)) (w_out w') body
    /\ length body = length p + 16 * (length p / BLOCK_SIZE + 1)
    /\ wrote (set_pos 0 (w_hdr w)) (w_hdr w') hdr
    /\ length hdr = 416
    /\ forall v, d_plan (w_in v) = [] -> d_plan (w_out v) = [] -> d_plan (w_hdr v) = [] ->
         at_cursor (w_hdr v) hdr -> d_pos (w_in v) = 0 ->
         d_data (w_in v) = body /\ all_zero (firstn 416 body) = false
         \/ d_data (w_in v) = zeros 416 ++ body ->
         exists v', decrypt_execute E true (er_raw_key req) v = (Ok tt, v')
           /\ wrote (w_out v) (w_out v') p.
Proof. exact file_round_trip_detached_v5. Qed.
Print Assumptions C18_detached_round_trip_partial.

Example C18_case :
  let w' := snd (encrypt_execute_bs toy 4 det_req (file_world ex_text [])) in
  let dec b := ok_out (decrypt_execute_bs toy 4 true ex_pw
                         (mkWorld (dev_of b) (dev_of []) (dev_of (d_data (w_hdr w'))) no_rng [])) in
  length (d_data (w_out w')) = 9 + 3 * 16 /\ length (d_data (w_hdr w')) = 416
  /\ dec (d_data (w_out w')) = Some ex_text
  /\ dec (zeros 416 ++ d_data (w_out w')) = Some ex_text.
Proof. vm_compute. repeat split. Qed.

(** C19: all devices, versions and modes.  Part one: a key that unlocks no slot
    of the header (if there is a header at all).  Part two: more generally, no
    byte is written unless the AEAD accepted a block of the body. *)
Theorem C19_wrong_key_writes_nothing : forall E detached pw v o v',
  env_ok E -> decrypt_execute E detached pw v = (o, v') ->
  ((forall h aad d, deserialize (header_source detached v) = (Ok (h, aad), d) ->
      forall mk, ~ unlocks E pw h mk) ->
   (exists e, o = Err e) /\ w_out v' = w_out v)
  /\ (w_tr v = [] ->
      (forall h aad d, deserialize (header_source detached v) = (Ok (h, aad), d) ->
         length (opened (w_tr v')) <= key_openings (ht_version (h_type h))) ->
      (exists e, o = Err e) /\ wrote (w_out v) (w_out v') []).
Proof. exact wrong_key_holds. Qed.
Print Assumptions C19_wrong_key_writes_nothing.

Example C19_case :
  let f := enc_file toy 4 (ex_req V5 (Argon2id 3)) ex_text in
  let r := decrypt_execute_bs toy 4 false (x00 :: ex_pw) (io_world f) in
  fst r = Err DecDecryptMasterKey /\ w_out (snd r) = dev_of [].
Proof. vm_compute. repeat split. Qed.

(** C20 refuted: if the file was encrypted with Argon2id(1) or (2), whose KDF
    output is used directly as the data key of V1 and V2 files, then the first
    keyslot, repackaged as a V1 file, is accepted with the right password without
    any forgery, and the output is the master key. *)
Theorem C20_file_integrity_refuted :
  exists E req w w' v v',
    env_ok E /\ supported req /\ w_tr w = [] /\ w_tr v = []
    /\ encrypt_execute E req w = (Ok tt, w')
    /\ w_in v = dev_of (downgraded (d_data (w_out w'))) /\ w_out v = dev_of []
    /\ decrypt_execute E false (er_raw_key req) v = (Ok tt, v')
    /\ d_data (w_out v') = draw (w_rng w) 16 32
    /\ d_data (w_out v') <> d_data (w_in w)
    /\ forall c, In c (opened (w_tr v')) -> In c (sealed (w_tr w')).
Proof. exact downgrade_accepted. Qed.
Print Assumptions C20_file_integrity_refuted.

(** C20 for the other hashing algorithms: all devices, any files (embedded or
    detached), any password.  Success means a forgery, a KDF collision, or: the
    password is the right one, the output is the plaintext that was encrypted,
    and header type, nonce and body are those of the encrypted file. *)
Theorem C20_file_integrity_partial : forall E req w w' detached pw v v',
  env_ok E -> w_tr w = [] -> w_tr v = [] ->
  ~ In (er_hashing_algorithm req) [Argon2id 1; Argon2id 2] ->
  encrypt_execute E req w = (Ok tt, w') ->
  decrypt_execute E detached pw v = (Ok tt, v') ->
  let p := firstn (d_pos (w_in w')) (d_data (w_in w)) in
  (no_short (d_plan (w_in w)) -> p = d_data (w_in w)) /\
  ((exists c, In c (opened (w_tr v')) /\ forgery E (w_tr w') c)
   \/ (exists ha s, kdf_collision E (er_hashing_algorithm req) (er_raw_key req)
                      (draw (w_rng w) 0 16) ha pw s)
   \/ (pw = er_raw_key req /\ wrote (w_out v) (w_out v') p
       /\ exists h aad d1 d2,
            deserialize (header_source detached v) = (Ok (h, aad), d1)
            /\ h_type h = er_header_type req
            /\ h_nonce h = draw (w_rng w)
                 (48 + get_nonce_len (ht_algorithm (er_header_type req)) MemoryMode)
                 (get_nonce_len (ht_algorithm (er_header_type req))
                                (ht_mode (er_header_type req)))
            /\ d_data d2 = d_data (w_in v) /\ (detached = false -> d2 = d1)
            /\ consumed d2 (w_in v') = body_of w')).
Proof. exact file_integrity_holds. Qed.
Print Assumptions C20_file_integrity_partial.

(** Changing byte [i] of the file, for any [i] in the type tag, the
    nonce, the keyslot and the body, and every truncation, is rejected. *)
Example C20_case :
  let f := enc_file toy 4 (ex_req V5 (Argon2id 3)) ex_text in
  let other b := match Byte.of_N ((Byte.to_N b + 1) mod 256) with Some c => c | None => b end in
  let flip i := firstn i f ++ map other (firstn 1 (skipn i f)) ++ skipn (S i) f in
  let ok b := match ok_out (decrypt_execute_bs toy 4 false ex_pw (io_world b)) with
              | Some _ => true | None => false end in
  ok f = true
  /\ forallb (fun i => negb (ok (flip i)))
       (seq 0 14 ++ seq 34 60 ++ seq 106 16 ++ seq 416 (length f - 416)) = true
  /\ forallb (fun i => negb (ok (firstn i f))) (seq 0 (length f)) = true.
Proof. vm_compute. repeat split. Qed.

(** C21 refuted by the same downgrade: the bytes written are not a prefix of the
    plaintext. *)
Theorem C21_only_authentic_file_output_refuted :
  exists E req w w' v o v',
    env_ok E /\ supported req /\ w_tr w = [] /\ w_tr v = []
    /\ encrypt_execute E req w = (Ok tt, w') /\ d_plan (w_in w) = []
    /\ w_out v = dev_of [] /\ decrypt_execute E false (er_raw_key req) v = (o, v')
    /\ ~ prefix_of (d_data (w_out v')) (d_data (w_in w))
    /\ forall c, In c (opened (w_tr v')) -> In c (sealed (w_tr w')).
Proof. exact downgrade_output. Qed.
Print Assumptions C21_only_authentic_file_output_refuted.

(** C21 for the other hashing algorithms: any outcome, any password. *)
Theorem C21_only_authentic_file_output_partial : forall E req w w' detached pw v o v',
  env_ok E -> w_tr w = [] -> w_tr v = [] ->
  ~ In (er_hashing_algorithm req) [Argon2id 1; Argon2id 2] ->
  encrypt_execute E req w = (Ok tt, w') ->
  decrypt_execute E detached pw v = (o, v') ->
  let p := firstn (d_pos (w_in w')) (d_data (w_in w)) in
  exists written, wrote (w_out v) (w_out v') written /\
  ((exists c, In c (opened (w_tr v')) /\ forgery E (w_tr w') c)
   \/ (exists ha s, kdf_collision E (er_hashing_algorithm req) (er_raw_key req)
                      (draw (w_rng w) 0 16) ha pw s)
   \/ (prefix_of written p
       /\ (d_plan (w_out v) = [] ->
             written = p \/ exists n, written = firstn (n * BLOCK_SIZE) p))).
Proof. exact only_authentic_file_output. Qed.
Print Assumptions C21_only_authentic_file_output_partial.

(** A file cut inside its last block leaves the first two blocks. *)
Example C21_case :
  let f := enc_file toy 4 (ex_req V5 (Argon2id 3)) ex_text in
  let r := decrypt_execute_bs toy 4 false ex_pw (io_world (firstn (length f - 1) f)) in
  fst r = Err DecDecryptData /\ d_data (w_out (snd r)) = firstn 8 ex_text.
Proof. vm_compute. repeat split. Qed.

(** C22 refuted: V4 headers do not record the algorithm. *)
Theorem C22_v4_round_trip_refuted :
  exists E req w w' v,
    env_ok E /\ supported req /\ ht_version (er_header_type req) = V4
    /\ d_plan (w_in w) = [] /\ d_plan (w_out w) = []
    /\ encrypt_execute E req w = (Ok tt, w')
    /\ w_in v = dev_of (d_data (w_out w')) /\ w_out v = dev_of []
    /\ fst (decrypt_execute E false (er_raw_key req) v) = Err DecDecryptMasterKey.
Proof. exact v4_other_hash_fails. Qed.
Print Assumptions C22_v4_round_trip_refuted.

(** C22 for Blake3Balloon(4). *)
Theorem C22_v4_round_trip_partial : forall E req w key,
  env_ok E ->
  let p := d_data (w_in w) in
  ht_version (er_header_type req) = V4 -> ht_mode (er_header_type req) = StreamMode ->
  er_hashing_algorithm req = Blake3Balloon 4 ->
  er_detached req = false ->
  d_plan (w_in w) = [] -> d_plan (w_out w) = [] ->
  hash E (er_hashing_algorithm req) (er_raw_key req) (draw (w_rng w) 0 16) = Ok key ->
  (N.of_nat (length p / BLOCK_SIZE) <= counter_max E)%N ->
  exists w' file,
    encrypt_execute E req w = (Ok tt, w')
    /\ wrote (set_pos 0 (w_out w)) (w_out w') file
    /\ (d_data (w_out w) = [] -> d_data (w_out w') = file)
    /\ forall v, d_plan (w_in v) = [] -> d_plan (w_out v) = [] -> rest (w_in v) = file ->
         exists v', decrypt_execute E false (er_raw_key req) v = (Ok tt, v')
           /\ wrote (w_out v) (w_out v') p.
Proof. exact file_round_trip_v4. Qed.
Print Assumptions C22_v4_round_trip_partial.

(** For the other algorithms the content is lost: no file and no password
    decrypts, short of a forgery or a KDF collision. *)
Theorem C22_v4_content_lost_partial : forall E req w w' detached pw v v',
  env_ok E -> w_tr w = [] -> w_tr v = [] ->
  ht_version (er_header_type req) = V4 ->
  ~ In (er_hashing_algorithm req) [Argon2id 1; Argon2id 2; Blake3Balloon 4] ->
  encrypt_execute E req w = (Ok tt, w') ->
  decrypt_execute E detached pw v = (Ok tt, v') ->
  (exists c, In c (opened (w_tr v')) /\ forgery E (w_tr w') c)
  \/ (exists ha s, kdf_collision E (er_hashing_algorithm req) (er_raw_key req)
                     (draw (w_rng w) 0 16) ha pw s).
Proof. exact v4_other_hash_lost. Qed.
Print Assumptions C22_v4_content_lost_partial.

Example C22_case :
  map (fun h => ok_out (decrypt_execute_bs toy 4 false ex_pw
                          (io_world (enc_file toy 4 (ex_req V4 h) ex_text))))
      [Argon2id 1; Argon2id 2; Argon2id 3; Blake3Balloon 4; Blake3Balloon 5]
  = [None; None; None; Some ex_text; None].
Proof. vm_compute. reflexivity. Qed.

(** C23 refuted: a V3 request panics. *)
Theorem C23_unsupported_request_refuted :
  exists E req w, env_ok E /\ ~ supported req
    /\ d_plan (w_in w) = [] /\ d_plan (w_out w) = []
    /\ fst (encrypt_execute E req w) = Panic.
Proof. exact v3_request_panics. Qed.
Print Assumptions C23_unsupported_request_refuted.

(** C23, what holds: outputs are never modified by an unsupported request, which
    gives an error except for a V3 stream-mode request; and no request of another
    version panics or hangs. *)
Theorem C23_unsupported_request_partial : forall E req w o w',
  env_ok E -> encrypt_execute E req w = (o, w') ->
  (~ supported req ->
   untouched (w_out w) (w_out w') /\ untouched (w_hdr w) (w_hdr w')
   /\ ((exists e, o = Err e)
       \/ (o = Panic /\ ht_version (er_header_type req) = V3
           /\ ht_mode (er_header_type req) = StreamMode)))
  /\ (ht_version (er_header_type req) <> V3 -> o <> Panic /\ o <> Diverge).
Proof. exact unsupported_request_holds. Qed.
Print Assumptions C23_unsupported_request_partial.

Example C23_case :
  map (fun t => fst (encrypt_execute_bs toy 4 (mkEncReq false ex_pw t (Argon2id 3))
                       (file_world ex_text [])))
      [mkHT V1 Aes256Gcm StreamMode; mkHT V2 Aes256Gcm StreamMode; mkHT V3 Aes256Gcm StreamMode;
       mkHT V4 Aes256Gcm StreamMode; mkHT V5 Aes256Gcm StreamMode; mkHT V5 Aes256Gcm MemoryMode]
  = [Err EncWriteHeader; Err EncWriteHeader; Panic; Ok tt; Ok tt; Err EncInitializeStreams].
Proof. vm_compute. reflexivity. Qed.

(** C24: two runs from the same state (hence the same random numbers) with
    different passwords and hashing algorithms differ in the 48 or 50 bytes of
    the keyslot's identifier and wrapped key only. *)
Theorem C24_body_independent_of_key : forall E detached t pw1 ha1 pw2 ha2 w u1 w1 u2 w2,
  env_ok E ->
  d_plan (w_in w) = [] -> d_plan (w_out w) = [] -> d_plan (w_hdr w) = [] ->
  encrypt_execute E (mkEncReq detached pw1 t ha1) w = (Ok u1, w1) ->
  encrypt_execute E (mkEncReq detached pw2 t ha2) w = (Ok u2, w2) ->
  let off := match ht_version t with V4 => 48 | _ => 32 end in
  let klen := match ht_version t with V4 => 48 | _ => 50 end in
  exists pre k1 k2 post body,
    length pre = off /\ length k1 = klen /\ length k2 = length k1
    /\ wrote (set_pos 0 (w_out w)) (w_out w1)
         (if detached then body else pre ++ k1 ++ post ++ body)
    /\ wrote (set_pos 0 (w_out w)) (w_out w2)
         (if detached then body else pre ++ k2 ++ post ++ body)
    /\ (if detached
        then wrote (set_pos 0 (w_hdr w)) (w_hdr w1) (pre ++ k1 ++ post)
             /\ wrote (set_pos 0 (w_hdr w)) (w_hdr w2) (pre ++ k2 ++ post)
        else w_hdr w1 = w_hdr w /\ w_hdr w2 = w_hdr w).
Proof. exact key_independent_holds. Qed.
Print Assumptions C24_body_independent_of_key.

Example C24_case :
  let f := enc_file toy 4 (ex_req V5 (Argon2id 3)) ex_text in
  let g := enc_file toy 4 (mkEncReq false (x00 :: ex_pw) (mkHT V5 Aes256Gcm StreamMode)
                             (Blake3Balloon 5)) ex_text in
  f <> g /\ firstn 32 f = firstn 32 g /\ skipn 82 f = skipn 82 g.
Proof. vm_compute. split; [discriminate|]. split; reflexivity. Qed.

(** C25 refuted: bytes of a longer old output remain behind the new file, which
    then does not decrypt. *)
Theorem C25_output_exact_refuted :
  exists E req w w', env_ok E /\ supported req
    /\ d_plan (w_in w) = [] /\ d_plan (w_out w) = []
    /\ encrypt_execute E req w = (Ok tt, w')
    /\ skipn (416 + 9 + 16) (d_data (w_out w')) = [x2a; x2a]
    /\ (forall v, w_in v = dev_of (d_data (w_out w')) -> w_out v = dev_of [] ->
          fst (decrypt_execute E false (er_raw_key req) v) = Err DecDecryptData).
Proof. exact old_output_remains. Qed.
Print Assumptions C25_output_exact_refuted.

(** C25, what holds: the output starts with header and body, followed by what the
    old output had beyond them. *)
Theorem C25_output_exact_partial : forall E req w w',
  env_ok E -> er_detached req = false ->
  d_plan (w_in w) = [] -> d_plan (w_out w) = [] ->
  encrypt_execute E req w = (Ok tt, w') ->
  exists h hdr aad body,
    h_type h = er_header_type req /\ serialize h = Ok hdr /\ create_aad h = Ok aad
    /\ is_ciphertext E (ht_algorithm (er_header_type req)) (draw (w_rng w) 16 32) (h_nonce h)
         aad BLOCK_SIZE (d_data (w_in w)) body
    /\ d_data (w_out w') = hdr ++ body ++ skipn (length (hdr ++ body)) (d_data (w_out w)).
Proof. exact output_after_encrypt_holds. Qed.
Print Assumptions C25_output_exact_partial.

Example C25_case :
  let r := encrypt_execute_bs toy 4 (ex_req V5 (Argon2id 3)) (file_world ex_text (repeat x2a 475)) in
  fst r = Ok tt
  /\ firstn 473 (d_data (w_out (snd r))) = enc_file toy 4 (ex_req V5 (Argon2id 3)) ex_text
  /\ skipn 473 (d_data (w_out (snd r))) = [x2a; x2a].
Proof. vm_compute. repeat split. Qed.
