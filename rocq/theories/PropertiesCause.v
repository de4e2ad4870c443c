(** Property C105: whether an error of decrypt or of a key operation tells what is wrong
    (crates/volaris-tools/src/decrypt.rs, crates/volaris-tools/src/key.rs and
    crates/volaris-tools/src/key/).  Vocabulary: CauseSpec.v. *)
From Coq Require Import List Arith NArith ZArith Bool.
From Verif Require Import Bytes Outcome IO Primitives Crypto Header Stream KeyModel EncDec KeyOps.
From Verif Require Import IOSpec FileSpec KeySpec DecryptSpec CauseSpec.
From Verif Require Import ToyEnv Fixtures FileCases KeyCases DecryptCases CauseProofs.
Import ListNotations.
Local Open Scope nat_scope.

(** REFUTED: a wrong password for a file of version 3, and a full disk in stream mode,
    are reported as data that cannot be decrypted, like a damaged file. *)
Theorem C105_cause_refuted :
  let old := old_file Old3 Aes256Gcm StreamMode ex_text in
  let full := mkWorld (dev_of kfile) (mkDev [] 0 [EvFail] []) (dev_of []) no_rng [] in
  fst (decrypt_execute toy false ex_pw (io_world old)) = Ok tt
  /\ fst (decrypt_execute toy false [x00] (io_world old)) = Err DecDecryptData
  /\ fst (decrypt_execute toy false ex_pw (io_world kfile)) = Ok tt
  /\ fst (decrypt_execute toy false ex_pw full) = Err DecDecryptData
  /\ fst (decrypt_execute toy false ex_pw (io_world (kfile ++ [x00]))) = Err DecDecryptData.
Proof. vm_compute. repeat split. Qed.
Print Assumptions C105_cause_refuted.

(** Every error of decrypt has the cause listed in [dec_cause], whatever the file and
    however the devices fail. *)
Theorem C105_decrypt_partial : forall E detached pw v e v', env_ok E ->
  decrypt_execute E detached pw v = (Err e, v') -> dec_cause E detached pw v e.
Proof. exact decrypt_cause. Qed.
Print Assumptions C105_decrypt_partial.

(** And every cause is reported, if the input can be read: no header, a password that
    opens nothing, a body that is not authentic, an output that fails. *)
Theorem C105_decrypt_tells_partial : forall E detached pw v o v', env_ok E -> d_plan (w_in v) = [] ->
  decrypt_execute E detached pw v = (o, v') ->
  (headless (header_source detached v) -> o = Err DecDeserializeHeader)
  /\ (forall h aad d1, deserialize (header_source detached v) = (Ok (h, aad), d1) ->
        (forall mk, ~ unlocks E pw h mk) -> o = Err DecDecryptMasterKey)
  /\ (detached = false -> forall h aad d1 mk, deserialize (w_in v) = (Ok (h, aad), d1) ->
        unlocks E pw h mk -> (forall p, ~ body_opens E h aad mk (rest d1) p) -> o = Err DecDecryptData)
  /\ (detached = false -> forall h aad d1 mk p, deserialize (w_in v) = (Ok (h, aad), d1) ->
        unlocks E pw h mk -> body_opens E h aad mk (rest d1) p ->
        o = Ok tt
        \/ d_plan (w_out v) <> []
           /\ o = Err (match ht_mode (h_type h) with MemoryMode => DecWriteData | StreamMode => DecDecryptData end)).
Proof. exact decrypt_tells. Qed.
Print Assumptions C105_decrypt_tells_partial.

(** The same for the four key operations. *)
Theorem C105_keys_partial : forall E op w e w', env_ok E ->
  run_op E op w = (Err e, w') -> key_cause E op w e.
Proof. exact key_cause_holds. Qed.
Print Assumptions C105_keys_partial.

Theorem C105_keys_tell_partial : forall E op w o w', env_ok E -> d_plan (w_in w) = [] ->
  run_op E op w = (o, w') ->
  (headless (w_in w) -> o = Err KHeaderDeserialize)
  /\ (forall h aad d1, deserialize (w_in w) = (Ok (h, aad), d1) -> ht_version (h_type h) <> V5 ->
        o = Err KUnsupported)
  /\ (forall h slots, v5_header (w_in w) h slots -> kdf_accepts E (old_password op) slots ->
        ~ known E (old_password op) h slots -> o = Err KIncorrectKey)
  /\ (forall h slots old new ha, op = OpAdd old new ha -> v5_header (w_in w) h slots ->
        kdf_accepts E old slots -> (forall salt, exists key, hash E ha new salt = Ok key) ->
        known E old h slots -> length slots = 4 -> o = Err KTooManyKeyslots).
Proof. exact key_tells. Qed.
Print Assumptions C105_keys_tell_partial.

Example C105_decrypt_case :
  let mem := old_file Old3 Aes256Gcm MemoryMode ex_text in
  let full d := mkWorld (dev_of d) (mkDev [] 0 [EvFail] []) (dev_of []) no_rng [] in
  map fst [decrypt_execute toy false ex_pw (io_world (skipn 1 kfile));
           decrypt_execute toy false pw2 (io_world kfile);
           decrypt_execute toy false ex_pw (io_world (firstn 420 kfile));
           decrypt_execute toy false ex_pw (full mem)]
  = [Err DecDeserializeHeader; Err DecDecryptMasterKey; Err DecDecryptData; Err DecWriteData].
Proof. vm_compute. reflexivity. Qed.

Example C105_keys_case :
  let four := after (OpAdd ex_pw [] (Argon2id 3)) (after (OpAdd ex_pw pw3 (Argon2id 3)) (after (OpAdd ex_pw pw2 (Argon2id 3)) kfile)) in
  let old := old_file Old3 Aes256Gcm StreamMode ex_text in
  let r op data := fst (run_op toy op (handle data 0)) in
  map (r (OpAdd pw3 [x01] (Argon2id 3))) [kfile; four; old; []]
  = [Err KIncorrectKey; Err KTooManyKeyslots; Err KUnsupported; Err KHeaderDeserialize]
  /\ map (r (OpAdd [x77] [x01] (Argon2id 3))) [four] = [Err KIncorrectKey].
Proof. vm_compute. repeat split. Qed.
