(** Properties C84 and C85: what decrypt::execute does with every file
    (crates/volaris-tools/src/decrypt.rs), and old files.  Vocabulary: IOSpec.v,
    StreamSpec.v, FileSpec.v, DecryptSpec.v. *)
From Coq Require Import List Arith NArith ZArith.
From Verif Require Import Bytes Outcome IO Primitives Crypto Header Stream KeyModel EncDec.
From Verif Require Import IOSpec HeaderSpec StreamSpec FileSpec DecryptSpec.
From Verif Require Import DecryptProofs ToyEnv Fixtures FileCases DecryptCases.
Import ListNotations.
Local Open Scope nat_scope.

(** C84, soundness: all devices, any version and mode, embedded or detached header.
    Success means that the header was readable, the password gives the master key, and
    what was written is all of what the body decrypts to; short writes do not cut it,
    and in memory mode short reads do not either. *)
Theorem C84_decrypt_sound : forall E detached pw v v', env_ok E ->
  decrypt_execute E detached pw v = (Ok tt, v') ->
  exists h aad d1 d2 mk ct p,
    deserialize (header_source detached v) = (Ok (h, aad), d1)
    /\ d_data d2 = d_data (w_in v) /\ (detached = false -> d2 = d1)
    /\ unlocks E pw h mk /\ body_opens E h aad mk ct p
    /\ wrote (w_out v) (w_out v') p
    /\ prefix_of ct (rest d2)
    /\ (ht_mode (h_type h) = MemoryMode \/ no_short (d_plan d2) -> ct = rest d2).
Proof. exact decrypt_sound. Qed.
Print Assumptions C84_decrypt_sound.

(** C84, completeness: on files. *)
Theorem C84_decrypt_complete : forall E pw v h aad d1 mk p, env_ok E ->
  d_plan (w_in v) = [] -> d_plan (w_out v) = [] ->
  deserialize (w_in v) = (Ok (h, aad), d1) ->
  unlocks E pw h mk -> body_opens E h aad mk (rest d1) p ->
  exists v', decrypt_execute E false pw v = (Ok tt, v') /\ wrote (w_out v) (w_out v') p.
Proof. exact decrypt_complete. Qed.
Print Assumptions C84_decrypt_complete.

(** With a header file, the body may follow the room of the header, if that is empty, or
    start the file, if there is something in that place. *)
Theorem C84_detached_complete : forall E pw v h aad d1 mk body p, env_ok E ->
  d_plan (w_in v) = [] -> d_plan (w_out v) = [] -> d_pos (w_in v) = 0 ->
  deserialize (w_hdr v) = (Ok (h, aad), d1) ->
  let room := get_size (ht_version (h_type h)) in
  (d_data (w_in v) = zeros room ++ body
   \/ (d_data (w_in v) = body /\ exists i, i < room /\ exists b, nth_error body i = Some b /\ b <> x00)) ->
  unlocks E pw h mk -> body_opens E h aad mk body p ->
  exists v', decrypt_execute E true pw v = (Ok tt, v') /\ wrote (w_out v) (w_out v') p.
Proof. exact decrypt_complete_detached. Qed.
Print Assumptions C84_detached_complete.

(** C85: files of versions 1 to 3, described byte by byte. *)
Theorem C85_old_files : forall E v a m salt nonce u1 u2 hdr body pw key p w, env_ok E ->
  old_header v a m salt nonce u1 u2 hdr -> old_key E v pw salt = Some key ->
  opens E a m key nonce (old_aad v hdr) body p ->
  w_in w = dev_of (hdr ++ body) -> w_out w = dev_of [] ->
  exists w', decrypt_execute E false pw w = (Ok tt, w') /\ d_data (w_out w') = p.
Proof. exact old_files. Qed.
Print Assumptions C85_old_files.

Example C85_case :
  forallb (fun v => forallb (fun a => forallb (fun m =>
      let r := decrypt_execute toy false ex_pw (io_world (old_file v a m ex_text)) in
      let bad := decrypt_execute toy false [x00] (io_world (old_file v a m ex_text)) in
      match fst r, fst bad with
      | Ok _, Err _ => bytes_eqb (d_data (w_out (snd r))) ex_text
      | _, _ => false
      end) [MemoryMode; StreamMode]) [XChaCha20Poly1305; Aes256Gcm; DeoxysII256]) [Old1; Old2; Old3] = true.
Proof. vm_compute. reflexivity. Qed.

(** A reader and a writer that transfer little at a time, in memory mode. *)
Example C84_case :
  let f := old_file Old1 Aes256Gcm MemoryMode ex_text in
  let r := decrypt_execute toy false ex_pw
             (mkWorld (mkDev f 0 [EvFull; EvFull; EvFull; EvShort 3; EvInt; EvShort 1] [])
                      (mkDev [] 0 [EvShort 2; EvInt; EvShort 1] []) (dev_of []) no_rng []) in
  let bad := decrypt_execute toy false ex_pw
             (mkWorld (dev_of f) (mkDev [] 0 [EvShort 2; EvFail] []) (dev_of []) no_rng []) in
  (fst r, d_data (w_out (snd r)), fst bad, d_data (w_out (snd bad)))
  = (Ok tt, ex_text, Err DecWriteData, firstn 2 ex_text).
Proof. vm_compute. reflexivity. Qed.
