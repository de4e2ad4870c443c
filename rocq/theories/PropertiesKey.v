(** Key operations C26-C34, C55, C56 (crates/volaris-tools/src/key/) and header
    operations C35-C38 (crates/volaris-tools/src/header/).  Vocabulary:
    IOSpec.v, HeaderSpec.v, FileSpec.v, KeySpec.v. *)
From Coq Require Import List Arith NArith ZArith Bool.
From Verif Require Import Bytes Outcome IO Primitives Crypto Header EncDec KeyModel KeyOps HeaderOps.
From Verif Require Import IOSpec HeaderSpec StreamSpec FileSpec FileProofs KeySpec.
From Verif Require Import KeyProofs KeyResults KeyCrash KeyHistory KeyWrap HeaderOpsProofs.
From Verif Require Import ToyEnv Fixtures FileCases KeyCases.
Local Open Scope nat_scope.

(** C26 refuted: the bytes behind the header's nonce, which decryption
    authenticates as it finds them, are rewritten as zeros.  A file with another
    byte there (not written by this program, but accepted by it) decrypts before
    the operation, and with no password afterwards. *)
Theorem C26_add_key_refuted :
  exists E old new ha w w',
    env_ok E /\ d_plan (w_in w) = [] /\ d_pos (w_in w) = 0
    /\ ok_out (decrypt_execute E false old (io_world (d_data (w_in w)))) = Some ex_text
    /\ key_add E old new ha w = (Ok tt, w')
    /\ fst (decrypt_execute E false old (io_world (d_data (w_in w')))) = Err DecDecryptData
    /\ fst (decrypt_execute E false new (io_world (d_data (w_in w')))) = Err DecDecryptData.
Proof. exact add_normalises. Qed.
Print Assumptions C26_add_key_refuted.

(** C26, what holds after success on any file, at any position, on devices
    without short writes: only the header area changes; the keyslots are the old
    ones followed by the new one; for a header as this program writes it exactly
    the 96 bytes of the new keyslot change, from zero; with zero padding the old
    password gives the same decryption as before, and so does the new one unless
    it already opens an older keyslot to something else. *)
Theorem C26_add_key_partial : forall E old new ha w w', env_ok E -> no_short (d_plan (w_in w)) ->
  key_add E old new ha w = (Ok tt, w') ->
  let p := d_pos (w_in w) in
  let data := d_data (w_in w) in
  let data' := d_data (w_in w') in
  exists h slots i mk k,
    let a := ht_algorithm (h_type h) in
    v5_header (w_in w) h slots /\ length slots < 4 /\ first_open E a old slots i mk
    /\ made E a mk (w_rng w) (OpAdd old new ha) k
    /\ same_outside p 416 data data'
    /\ v5_header (dev_at data' p) (with_slots h (slots ++ [k])) (slots ++ [k])
    /\ (canonical_at data p h -> exists pre post,
          length pre = p + 32 + 96 * length slots
          /\ data = pre ++ zeros 96 ++ post /\ data' = pre ++ slot_bytes a k ++ post)
    /\ (padding_zero data p h ->
          same_decryption E old (dev_at data p) old (dev_at data' p)
          /\ ((forall k' m, In k' slots -> slot_opens E a new k' m -> m = mk) ->
              same_decryption E old (dev_at data p) new (dev_at data' p))).
Proof. exact add_holds. Qed.
Print Assumptions C26_add_key_partial.

Example C26_case :
  let f' := after (OpAdd ex_pw pw2 (Blake3Balloon 5)) kfile in
  firstn 128 f' = firstn 128 kfile /\ skipn 224 f' = skipn 224 kfile /\ f' <> kfile
  /\ dec_with ex_pw f' = Some ex_text /\ dec_with pw2 f' = Some ex_text /\ dec_with pw3 f' = None
  /\ dec_with pw2 kfile = None.
Proof. vm_compute. repeat split. discriminate. Qed.

(** C27 refuted by the same padding. *)
Theorem C27_change_key_refuted :
  exists E old new ha w w',
    env_ok E /\ d_plan (w_in w) = [] /\ d_pos (w_in w) = 0
    /\ ok_out (decrypt_execute E false old (io_world (d_data (w_in w)))) = Some ex_text
    /\ key_change E old new ha w = (Ok tt, w')
    /\ fst (decrypt_execute E false new (io_world (d_data (w_in w')))) = Err DecDecryptData.
Proof. exact change_normalises. Qed.
Print Assumptions C27_change_key_refuted.

(** C27, what holds after success on devices without short writes: only the
    first keyslot that the old password opens is replaced; the new password gives
    what the old one gave (zero padding; the new password opens no other keyslot
    to another key); and if the old password opens the replaced slot, then it is
    the new one, or collides with it under the KDF, or the AEAD was forged. *)
Theorem C27_change_key_partial : forall E old new ha w w', env_ok E -> no_short (d_plan (w_in w)) ->
  key_change E old new ha w = (Ok tt, w') ->
  let p := d_pos (w_in w) in
  let data := d_data (w_in w) in
  let data' := d_data (w_in w') in
  exists h l1 k0 l2 mk k,
    let a := ht_algorithm (h_type h) in
    v5_header (w_in w) h (l1 ++ k0 :: l2) /\ first_open E a old (l1 ++ k0 :: l2) (length l1) mk
    /\ made E a mk (w_rng w) (OpChange old new ha) k
    /\ same_outside p 416 data data'
    /\ v5_header (dev_at data' p) (with_slots h (l1 ++ k :: l2)) (l1 ++ k :: l2)
    /\ (canonical_at data p h -> exists pre post,
          length pre = p + 32 + 96 * length l1
          /\ data = pre ++ slot_bytes a k0 ++ post /\ data' = pre ++ slot_bytes a k ++ post)
    /\ (padding_zero data p h ->
          (forall k' m, In k' (l1 ++ l2) -> slot_opens E a new k' m -> m = mk) ->
          same_decryption E old (dev_at data p) new (dev_at data' p))
    /\ (forall m, slot_opens E a old k m ->
          old = new
          \/ kdf_collision E ha old (ks_salt k) ha new (ks_salt k)
          \/ exists key, hash E ha old (ks_salt k) = Ok key
             /\ (w_tr w = [] -> forgery E (w_tr w') (mkCall a key (ks_nonce k) [] m (ks_enc k)))).
Proof. exact change_holds. Qed.
Print Assumptions C27_change_key_partial.

Example C27_case :
  let f1 := after (OpAdd ex_pw pw2 (Blake3Balloon 5)) kfile in
  let f2 := after (OpChange pw2 pw3 (Argon2id 3)) f1 in
  firstn 128 f2 = firstn 128 f1 /\ skipn 224 f2 = skipn 224 f1
  /\ map (fun pw => dec_with pw f2) [ex_pw; pw2; pw3] = [Some ex_text; None; Some ex_text].
Proof. vm_compute. repeat split. Qed.

(** C28 refuted: deleting the only key is accepted; afterwards no password
    decrypts the file. *)
Theorem C28_delete_key_refuted :
  exists E old w w',
    env_ok E /\ d_plan (w_in w) = [] /\ d_pos (w_in w) = 0
    /\ ok_out (decrypt_execute E false old (io_world (d_data (w_in w)))) = Some ex_text
    /\ key_delete E old w = (Ok tt, w')
    /\ forall pw v, w_in v = dev_of (d_data (w_in w')) ->
         fst (decrypt_execute E false pw v) = Err DecDecryptMasterKey.
Proof. exact delete_last. Qed.
Print Assumptions C28_delete_key_refuted.

(** C28, what holds after success on devices without short writes: exactly the
    first keyslot that the password opens is gone; for a header as this program
    writes it the slots behind it move up and zeros follow; passwords whose first
    slot is another one decrypt as before, and passwords that open none of the
    remaining slots get an error and no output. *)
Theorem C28_delete_key_partial : forall E old w w', env_ok E -> no_short (d_plan (w_in w)) ->
  key_delete E old w = (Ok tt, w') ->
  let p := d_pos (w_in w) in
  let data := d_data (w_in w) in
  let data' := d_data (w_in w') in
  exists h l1 k0 l2 mk,
    let a := ht_algorithm (h_type h) in
    v5_header (w_in w) h (l1 ++ k0 :: l2) /\ first_open E a old (l1 ++ k0 :: l2) (length l1) mk
    /\ same_outside p 416 data data'
    /\ v5_header (dev_at data' p) (with_slots h (l1 ++ l2)) (l1 ++ l2)
    /\ (canonical_at data p h -> exists pre mid post,
          length pre = p + 32 + 96 * length l1 /\ mid = concat (map (slot_bytes a) l2)
          /\ data = pre ++ slot_bytes a k0 ++ mid ++ post /\ data' = pre ++ mid ++ zeros 96 ++ post)
    /\ (padding_zero data p h -> forall pw i m,
          first_open E a pw (l1 ++ k0 :: l2) i m -> i <> length l1 ->
          same_decryption E pw (dev_at data p) pw (dev_at data' p))
    /\ (forall pw, (forall k m, In k (l1 ++ l2) -> ~ slot_opens E a pw k m) ->
          forall v o v', w_in v = dev_at data' p -> decrypt_execute E false pw v = (o, v') ->
          (exists e, o = Err e) /\ w_out v' = w_out v).
Proof. exact delete_holds. Qed.
Print Assumptions C28_delete_key_partial.

Example C28_case :
  let f1 := after (OpAdd ex_pw pw2 (Blake3Balloon 5)) kfile in
  let f2 := after (OpDelete ex_pw) f1 in
  slice 32 96 f2 = slice 128 96 f1 /\ slice 128 288 f2 = zeros 288 /\ skipn 416 f2 = skipn 416 f1
  /\ map (fun pw => dec_with pw f2) [ex_pw; pw2; pw3] = [None; Some ex_text; None]
  /\ after (OpDelete pw2) f1 = kfile.
Proof. vm_compute. repeat split. Qed.

(** C29 refuted: with an all-zero master key, which decryption accepts, verify
    reports an incorrect key. *)
Theorem C29_verify_agrees_refuted :
  exists E pw w h aad d',
    env_ok E /\ d_plan (w_in w) = []
    /\ deserialize (w_in w) = (Ok (h, aad), d') /\ ht_version (h_type h) = V5
    /\ fst (decrypt_master_key E pw h []) = Ok (zeros 32)
    /\ ok_out (decrypt_execute E false pw (io_world (d_data (w_in w)))) = Some ex_text
    /\ fst (key_verify E pw w) = Err KIncorrectKey.
Proof. exact verify_zero_key. Qed.
Print Assumptions C29_verify_agrees_refuted.

(** C29, what holds on all devices: verify never changes the file; it accepts
    only if decryption finds a master key; and it accepts whenever decryption
    finds a non-zero master key, if the KDF does not fail on any keyslot. *)
Theorem C29_verify_agrees_partial : forall E pw w o w', env_ok E -> key_verify E pw w = (o, w') ->
  untouched (w_in w) (w_in w')
  /\ (o = Ok tt -> exists h slots mk, v5_header (w_in w) h slots /\ mk <> zeros 32
        /\ forall tr, fst (decrypt_master_key E pw h tr) = Ok mk)
  /\ (d_plan (w_in w) = [] -> forall h slots mk tr, v5_header (w_in w) h slots ->
        fst (decrypt_master_key E pw h tr) = Ok mk ->
        mk <> zeros 32 -> kdf_accepts E pw slots -> o = Ok tt)
  /\ (o = Ok tt \/ exists e, o = Err e).
Proof. exact verify_holds. Qed.
Print Assumptions C29_verify_agrees_partial.

Example C29_case :
  map (fun pw => fst (key_verify toy pw (handle (after (OpAdd ex_pw pw2 (Argon2id 1)) kfile) 0))) [ex_pw; pw2; pw3]
  = [Ok tt; Ok tt; Err KIncorrectKey].
Proof. vm_compute. reflexivity. Qed.

(** C30: all files, positions, and behaviours of the handle; no operation
    panics or hangs either. *)
Theorem C30_failed_op_changes_nothing : forall E op w o w', env_ok E -> run_op E op w = (o, w') ->
  (o = Ok tt \/ (exists e, o = Err e))
  /\ (o <> Ok tt -> untouched (w_in w) (w_in w'))
  /\ w_out w' = w_out w /\ w_hdr w' = w_hdr w.
Proof. exact op_error_holds. Qed.
Print Assumptions C30_failed_op_changes_nothing.

Example C30_case :
  let r plan op := run_op toy op (mkWorld (mkDev kfile 0 plan []) (dev_of []) (dev_of []) ex_rng []) in
  let same x := bytes_eqb (d_data (w_in (snd x))) kfile in
  let x := r [] (OpDelete pw2) in
  let y := r (repeat EvFull 4 ++ [EvFail]) (OpAdd ex_pw pw2 (Argon2id 3)) in
  fst x = Err KIncorrectKey /\ same x = true /\ fst y = Err KHeaderWrite /\ same y = true.
Proof. vm_compute. repeat split. Qed.

(** C31: any sequence of operations on a freshly encrypted file.  Either some
    keyslot opens for a password it was not made for (a KDF collision or an AEAD
    acceptance under another key), or: the abstract key list, following the
    outcomes, never disagrees with a success, the header parses with one keyslot
    per list entry, at most four, the body is unchanged, and a password decrypts
    the file, to the original content, exactly if it is in the list. *)
Theorem C31_key_history : forall E req w w' ops pw, env_ok E ->
  ht_version (er_header_type req) = V5 -> er_detached req = false ->
  d_plan (w_in w) = [] -> d_plan (w_out w) = [] -> d_data (w_out w) = [] ->
  encrypt_execute E req w = (Ok tt, w') ->
  let data0 := d_data (w_out w') in
  let data := snd (run_all E ops data0) in
  (exists n, n <= length ops
     /\ crossed E (pw :: er_raw_key req :: passwords ops) (snd (run_all E (firstn n ops) data0)))
  \/ exists l, follow ops (fst (run_all E ops data0)) [er_raw_key req] = Some l
      /\ length data = length data0 /\ skipn 416 data = skipn 416 data0
      /\ (exists h slots, v5_header (dev_at data 0) h slots /\ length slots = length l /\ length slots <= 4)
      /\ forall v, w_in v = dev_at data 0 -> d_plan (w_out v) = [] ->
           if existsb (bytes_eqb pw) l
           then exists v', decrypt_execute E false pw v = (Ok tt, v')
                  /\ wrote (w_out v) (w_out v') (d_data (w_in w))
           else exists e v', decrypt_execute E false pw v = (Err e, v') /\ w_out v' = w_out v.
Proof. exact history_follow_holds. Qed.
Print Assumptions C31_key_history.

(** The same, with the outcome of every operation predicted by the list: this
    needs a master key other than all zeros (see C56) and a KDF that does not fail. *)
Theorem C31_key_history_predicted : forall E req w w' ops pw, env_ok E ->
  ht_version (er_header_type req) = V5 -> er_detached req = false ->
  d_plan (w_in w) = [] -> d_plan (w_out w) = [] -> d_data (w_out w) = [] ->
  encrypt_execute E req w = (Ok tt, w') ->
  draw (w_rng w) 16 32 <> zeros 32 ->
  (forall q, In q (passwords ops) -> kdf_total E q) ->
  let data0 := d_data (w_out w') in
  let data := snd (run_all E ops data0) in
  let l := snd (list_run ops [er_raw_key req]) in
  (exists n, n <= length ops
     /\ crossed E (pw :: er_raw_key req :: passwords ops) (snd (run_all E (firstn n ops) data0)))
  \/ (Forall2 agrees (fst (run_all E ops data0)) (fst (list_run ops [er_raw_key req]))
      /\ length data = length data0 /\ skipn 416 data = skipn 416 data0
      /\ (exists h slots, v5_header (dev_at data 0) h slots /\ length slots = length l /\ length slots <= 4)
      /\ forall v, w_in v = dev_at data 0 -> d_plan (w_out v) = [] ->
           if existsb (bytes_eqb pw) l
           then exists v', decrypt_execute E false pw v = (Ok tt, v')
                  /\ wrote (w_out v) (w_out v') (d_data (w_in w))
           else exists e v', decrypt_execute E false pw v = (Err e, v') /\ w_out v' = w_out v).
Proof. exact history_holds. Qed.
Print Assumptions C31_key_history_predicted.

Example C31_case :
  let ops := map (fun op => (op, (fun n => ex_rng (n + 50)) : rng))
    [OpAdd ex_pw pw2 (Blake3Balloon 5); OpDelete pw3; OpChange ex_pw pw3 (Argon2id 3); OpVerify ex_pw;
     OpAdd pw2 [] (Argon2id 2); OpAdd pw2 pw2 (Argon2id 1); OpAdd pw2 ex_pw (Argon2id 1); OpDelete pw2] in
  let r := run_all toy ops kfile in
  fst r = [Ok tt; Err KIncorrectKey; Ok tt; Err KIncorrectKey; Ok tt; Ok tt; Err KTooManyKeyslots; Ok tt]
  /\ list_run ops [ex_pw] = ([true; false; true; false; true; true; false; true], [pw3; []; pw2])
  /\ follow ops (fst r) [ex_pw] = Some [pw3; []; pw2]
  /\ map (fun pw => dec_with pw (snd r)) [ex_pw; pw2; pw3; []] = [None; Some ex_text; Some ex_text; Some ex_text].
Proof. vm_compute. repeat split. Qed.

(** C32 refuted: if the rewrite of key::add stops after the first byte of the
    new keyslot's identifier, the header is not accepted any more and no password
    works, though nothing but an unused keyslot was being written. *)
Theorem C32_crash_safety_refuted :
  exists E old new ha w w' n,
    env_ok E /\ d_plan (w_in w) = [] /\ d_pos (w_in w) = 0
    /\ canonical_v5 Aes256Gcm StreamMode (slice 0 416 (d_data (w_in w)))
    /\ ok_out (decrypt_execute E false old (io_world (d_data (w_in w)))) = Some ex_text
    /\ key_add E old new ha w = (Ok tt, w')
    /\ ok_out (decrypt_execute E false old (io_world (d_data (w_in w')))) = Some ex_text
    /\ n <= 416
    /\ forall pw v, w_in v = dev_of (torn 0 n (d_data (w_in w)) (d_data (w_in w'))) ->
         fst (decrypt_execute E false pw v) = Err DecDeserializeHeader.
Proof. exact add_torn. Qed.
Print Assumptions C32_crash_safety_refuted.

(** C32 refuted for key::change when a password is kept while its hashing
    algorithm is changed: if the rewrite stops inside the keyslot, the password is
    lost. *)
Theorem C32_crash_safety_change_refuted :
  exists E pw ha w w' n,
    env_ok E /\ d_plan (w_in w) = [] /\ d_pos (w_in w) = 0 /\ n <= 416
    /\ ok_out (decrypt_execute E false pw (io_world (d_data (w_in w)))) = Some ex_text
    /\ key_change E pw pw ha w = (Ok tt, w')
    /\ ok_out (decrypt_execute E false pw (io_world (d_data (w_in w')))) = Some ex_text
    /\ fst (decrypt_execute E false pw (io_world (torn 0 n (d_data (w_in w)) (d_data (w_in w')))))
       = Err DecDecryptMasterKey.
Proof. exact change_self_torn. Qed.
Print Assumptions C32_crash_safety_change_refuted.

(** C32 refuted for key::delete: the keyslot parser skips only two bytes for an
    empty slot, so zeros in place of the first bytes of the last slot make it read
    the rest of that slot as identifiers; a wrapped key that starts with the right
    byte makes the header unacceptable, and the remaining password is lost. *)
Theorem C32_crash_safety_delete_refuted :
  exists E old pw w w' n,
    env_ok E /\ d_plan (w_in w) = [] /\ d_pos (w_in w) = 0 /\ n <= 416
    /\ ok_out (decrypt_execute E false pw (io_world (d_data (w_in w)))) = Some ex_text
    /\ key_delete E old w = (Ok tt, w')
    /\ ok_out (decrypt_execute E false pw (io_world (d_data (w_in w')))) = Some ex_text
    /\ fst (decrypt_execute E false pw (io_world (torn 0 n (d_data (w_in w)) (d_data (w_in w')))))
       = Err DecDeserializeHeader.
Proof. exact delete_torn. Qed.
Print Assumptions C32_crash_safety_delete_refuted.

(** C32, what holds for headers as this program writes them and every crash
    point but those of [bad_cut]: the header parses, has every keyslot that is
    there both before and after, and each password that opens such a keyslot to
    its master key decrypts as before (unless it opens a half-written slot to
    something else). *)
Theorem C32_crash_safety_partial : forall E op w w' n, env_ok E -> not_verify op -> no_short (d_plan (w_in w)) ->
  run_op E op w = (Ok tt, w') -> n <= 416 ->
  let p := d_pos (w_in w) in
  let data := d_data (w_in w) in
  let data' := d_data (w_in w') in
  exists h slots slots',
    let a := ht_algorithm (h_type h) in
    v5_header (w_in w) h slots /\ v5_header (dev_at data' p) (with_slots h slots') slots'
    /\ (canonical_at data p h -> ~ bad_cut op (length slots) n ->
        exists slotsn,
          v5_header (dev_at (torn p n data data') p) (with_slots h slotsn) slotsn
          /\ same_outside p 416 data (torn p n data data')
          /\ (forall k, In k slots -> In k slots' -> In k slotsn)
          /\ forall pw i mk, first_open E a pw slots i mk ->
               (exists k, In k slots /\ In k slots' /\ slot_opens E a pw k mk) ->
               (forall k m, In k slotsn -> slot_opens E a pw k m -> m = mk) ->
               same_decryption E pw (dev_at data p) pw (dev_at (torn p n data data') p)).
Proof. exact crash_holds. Qed.
Print Assumptions C32_crash_safety_partial.

(** The crash points at which a password that is valid before and after is lost:
    adding to one key, deleting the first of two, and deleting the second of two
    (crash points around the second keyslot). *)
Example C32_case :
  let f1 := after (OpAdd ex_pw pw2 (Blake3Balloon 5)) kfile in
  let lost pw f f' := filter (fun n => match dec_with pw (torn 0 n f f') with Some _ => false | None => true end)
                        (seq 126 8) in
  lost ex_pw kfile f1 = [129] /\ lost pw2 f1 (after (OpDelete ex_pw) f1) = []
  /\ lost ex_pw dfile (after (OpDelete pw2) dfile) = [129; 130].
Proof. vm_compute. repeat split. Qed.

(** C33: all files, positions, and behaviours of the handle; the log of writes
    shows that nothing else is written even temporarily. *)
Theorem C33_op_touches_header_only : forall E op w o w', env_ok E -> run_op E op w = (o, w') ->
  let p := d_pos (w_in w) in
  same_outside p 416 (d_data (w_in w)) (d_data (w_in w'))
  /\ (exists new, d_log (w_in w') = d_log (w_in w) ++ new
       /\ forall q c, In (q, c) new -> p <= q /\ q + length c <= p + 416)
  /\ w_out w' = w_out w /\ w_hdr w' = w_hdr w.
Proof. exact op_region_holds. Qed.
Print Assumptions C33_op_touches_header_only.

Example C33_case :
  let d := [x01; x02; x03] ++ kfile in
  let r plan := run_op toy (OpAdd ex_pw pw2 (Argon2id 3)) (mkWorld (mkDev d 3 plan []) (dev_of []) (dev_of []) ex_rng []) in
  let d1 := d_data (w_in (snd (r []))) in
  let d2 := d_data (w_in (snd (r (repeat EvFull 4 ++ [EvShort 200])))) in
  firstn 3 d1 = firstn 3 d /\ skipn 419 d1 = skipn 419 d /\ d1 <> d
  /\ firstn 203 d2 = firstn 203 d1 /\ skipn 203 d2 = skipn 203 d.
Proof. vm_compute. repeat split. discriminate. Qed.

(** C34 refuted: Header::write makes a single call of write and ignores the
    count. *)
Theorem C34_header_complete_refuted :
  exists h d d' b, wf_header h /\ serialize h = Ok b /\ length b = 416 /\ d_data d = []
    /\ header_write h d = (Ok tt, d') /\ d_data d' = firstn 100 b.
Proof. exact header_short. Qed.
Print Assumptions C34_header_complete_refuted.

(** C34 refuted for encrypt::execute: it reports success, and the file has no
    valid header. *)
Theorem C34_encrypt_complete_refuted :
  exists E req w w', env_ok E /\ supported req /\ er_detached req = false
    /\ d_data (w_out w) = [] /\ encrypt_execute E req w = (Ok tt, w')
    /\ length (d_data (w_out w')) = 100 + length (d_data (w_in w)) + 16
    /\ fst (decrypt_execute E false (er_raw_key req) (io_world (d_data (w_out w')))) = Err DecDeserializeHeader.
Proof. exact encrypt_short. Qed.
Print Assumptions C34_encrypt_complete_refuted.

(** C34, what holds: on writers without short writes (interruptions and failures
    allowed) success means that the whole header was written. *)
Theorem C34_header_complete_partial : forall h d d', wf_header h -> no_short (d_plan d) ->
  header_write h d = (Ok tt, d') ->
  exists b, serialize h = Ok b /\ length b = get_size (ht_version (h_type h)) /\ wrote d d' b.
Proof. exact header_write_holds. Qed.
Print Assumptions C34_header_complete_partial.

(** The same for encrypt::execute. *)
Theorem C34_encrypt_complete_partial : forall E req w w', env_ok E ->
  no_short (d_plan (w_out w)) -> no_short (d_plan (w_hdr w)) ->
  encrypt_execute E req w = (Ok tt, w') ->
  exists h b body, h_type h = er_header_type req /\ serialize h = Ok b
    /\ length b = get_size (ht_version (h_type h))
    /\ if er_detached req
       then wrote (set_pos 0 (w_hdr w)) (w_hdr w') b /\ wrote (set_pos 0 (w_out w)) (w_out w') body
       else wrote (set_pos 0 (w_out w)) (w_out w') (b ++ body) /\ w_hdr w' = w_hdr w.
Proof. exact encrypt_header_written. Qed.
Print Assumptions C34_encrypt_complete_partial.

Example C34_case :
  let h := mkHeader (mkHT V5 Aes256Gcm StreamMode) ex_nonce None (Some []) in
  let r plan := header_write h (mkDev [] 0 plan []) in
  (fst (r []), length (d_data (snd (r [])))) = (Ok tt, 416)
  /\ (fst (r [EvInt]), length (d_data (snd (r [EvInt])))) = (Err HWrite, 0)
  /\ (fst (r [EvShort 7]), length (d_data (snd (r [EvShort 7])))) = (Ok tt, 7).
Proof. vm_compute. repeat split. Qed.

(** C35: on every behaviour of the handle only the header's bytes can change;
    success means that they are zero; well-behaved handles succeed; without a
    header at the handle's position there is an error and no change.  (The zeros
    are written at offset 0, so the handle is assumed to stand there if the
    header is to be the one removed; the CLI opens the file for the call.) *)
Theorem C35_strip_exact : forall w o w', header_strip w = (o, w') ->
  let data := d_data (w_in w) in
  let data' := d_data (w_in w') in
  w_out w' = w_out w /\ w_hdr w' = w_hdr w
  /\ (forall h aad d', deserialize (w_in w) = (Ok (h, aad), d') ->
        same_outside 0 (get_size (ht_version (h_type h))) data data'
        /\ (o = Ok tt -> data' = zeros (get_size (ht_version (h_type h)))
                                 ++ skipn (get_size (ht_version (h_type h))) data)
        /\ (d_plan (w_in w) = [] -> o = Ok tt)
        /\ (o = Ok tt \/ exists e, o = Err e))
  /\ ((forall h aad d', deserialize (w_in w) <> (Ok (h, aad), d')) ->
      (exists e, o = Err e) /\ untouched (w_in w) (w_in w'))
  /\ (d_plan (w_in w) = [] -> (forall t, ~ readable t (rest (w_in w))) ->
      (exists e, o = Err e) /\ untouched (w_in w) (w_in w')).
Proof. exact strip_holds. Qed.
Print Assumptions C35_strip_exact.

Example C35_case :
  let r d := header_strip (two_files d []) in
  fst (r kfile) = Ok tt /\ d_data (w_in (snd (r kfile))) = zeros 416 ++ skipn 416 kfile
  /\ fst (r (firstn 415 kfile)) = Err HopInvalidFile
  /\ d_data (w_in (snd (r (firstn 415 kfile)))) = firstn 415 kfile.
Proof. vm_compute. repeat split. Qed.

(** C36: files made by encryption and any history of key operations. *)
Theorem C36_dump_strip_restore : forall E req w w' ops, env_ok E ->
  ht_version (er_header_type req) = V5 -> er_detached req = false ->
  d_plan (w_out w) = [] -> d_data (w_out w) = [] ->
  encrypt_execute E req w = (Ok tt, w') ->
  let data := snd (run_all E ops (d_data (w_out w'))) in
  exists w1 w2 w3,
    header_dump (two_files data []) = (Ok tt, w1)
    /\ d_data (w_out w1) = firstn 416 data
    /\ header_strip (two_files data []) = (Ok tt, w2)
    /\ d_data (w_in w2) = zeros 416 ++ skipn 416 data
    /\ header_restore (two_files (d_data (w_out w1)) (d_data (w_in w2))) = (Ok tt, w3)
    /\ d_data (w_out w3) = data.
Proof. exact dump_strip_restore_holds. Qed.
Print Assumptions C36_dump_strip_restore.

Example C36_case :
  let f := after (OpAdd ex_pw pw2 (Blake3Balloon 5)) kfile in
  let h := d_data (w_out (snd (header_dump (two_files f [])))) in
  let s := d_data (w_in (snd (header_strip (two_files f [])))) in
  let r := header_restore (two_files h s) in
  h = firstn 416 f /\ s <> f /\ fst r = Ok tt /\ d_data (w_out (snd r)) = f.
Proof. vm_compute. repeat split. discriminate. Qed.

(** C37 refuted: a target of one zero byte is accepted. *)
Theorem C37_restore_safe_refuted :
  exists w w', d_plan (w_in w) = [] /\ d_plan (w_out w) = [] /\ d_pos (w_out w) = 0
    /\ length (d_data (w_out w)) = 1
    /\ header_restore w = (Ok tt, w') /\ length (d_data (w_out w')) = 416.
Proof. exact restore_short. Qed.
Print Assumptions C37_restore_safe_refuted.

(** C37 refuted: the number of bytes read is ignored, so after a short read of
    one zero byte, 415 bytes of data are overwritten. *)
Theorem C37_restore_short_read_refuted :
  exists w w', d_plan (w_in w) = [] /\ d_pos (w_out w) = 0
    /\ d_data (w_out w) = [x00] ++ repeat x2a 500
    /\ header_restore w = (Ok tt, w')
    /\ firstn 416 (d_data (w_out w')) = firstn 416 (d_data (w_in w)).
Proof. exact restore_short_read. Qed.
Print Assumptions C37_restore_short_read_refuted.

(** C37, what holds for every behaviour of the devices: unless it succeeds the
    target is unchanged; if it succeeds the bytes read were zero, and on a target
    that is long enough, read from its start without short reads, these are all
    the bytes that the header replaces. *)
Theorem C37_restore_safe_partial : forall w o w', header_restore w = (o, w') ->
  let data := d_data (w_out w) in
  let data' := d_data (w_out w') in
  untouched (w_in w) (w_in w')
  /\ (o <> Ok tt -> untouched (w_out w) (w_out w'))
  /\ (o = Ok tt ->
      exists h aad d' b n got, deserialize (w_in w) = (Ok (h, aad), d') /\ serialize h = Ok b
        /\ length b = get_size (ht_version (h_type h))
        /\ got <= length b /\ slice (d_pos (w_out w)) got data = zeros got
        /\ n <= length b /\ data' = write_at data 0 (firstn n b)
        /\ (no_short (d_plan (w_out w)) -> n = length b)
        /\ (no_short (d_plan (w_out w)) -> d_pos (w_out w) = 0 -> length b <= length data ->
            firstn (length b) data = zeros (length b) /\ data' = b ++ skipn (length b) data)).
Proof. exact restore_holds. Qed.
Print Assumptions C37_restore_safe_partial.

Example C37_case :
  let r t := header_restore (two_files (firstn 416 kfile) t) in
  fst (r (zeros 415 ++ [x01; x02])) = Err HopUnsupportedRestore
  /\ d_data (w_out (snd (r (zeros 415 ++ [x01; x02])))) = zeros 415 ++ [x01; x02]
  /\ fst (r (zeros 416 ++ [x01; x02])) = Ok tt
  /\ d_data (w_out (snd (r (zeros 416 ++ [x01; x02])))) = firstn 416 kfile ++ [x01; x02].
Proof. vm_compute. repeat split. Qed.

(** C38: files made by encryption and any history of key operations, any
    password, any output device: same outcome and same output. *)
Theorem C38_stripped_file_decrypts : forall E req w w' ops pw out r tr, env_ok E ->
  ht_version (er_header_type req) = V5 -> er_detached req = false ->
  d_plan (w_out w) = [] -> d_data (w_out w) = [] ->
  encrypt_execute E req w = (Ok tt, w') ->
  let data := snd (run_all E ops (d_data (w_out w'))) in
  exists w1 w2,
    header_dump (two_files data []) = (Ok tt, w1)
    /\ header_strip (two_files data []) = (Ok tt, w2)
    /\ let r1 := decrypt_execute E false pw (mkWorld (dev_of data) out (dev_of []) r tr) in
       let r2 := decrypt_execute E true pw
                   (mkWorld (dev_of (d_data (w_in w2))) out (dev_of (d_data (w_out w1))) r tr) in
       fst r1 = fst r2 /\ w_out (snd r1) = w_out (snd r2).
Proof. exact stripped_holds. Qed.
Print Assumptions C38_stripped_file_decrypts.

Example C38_case :
  let h := d_data (w_out (snd (header_dump (two_files kfile [])))) in
  let s := d_data (w_in (snd (header_strip (two_files kfile [])))) in
  let dec pw := ok_out (decrypt_execute toy true pw (mkWorld (dev_of s) (dev_of []) (dev_of h) no_rng [])) in
  dec ex_pw = Some ex_text /\ dec pw2 = None /\ dec_with ex_pw s = None.
Proof. vm_compute. repeat split. Qed.

(** C55: the conversion to an array, and unwrapping of a wrapped key by both
    searches (the second refuses an all-zero master key, see C56). *)
Theorem C55_key_wrapping :
  (forall n v, vec_to_arr n v = firstn n (v ++ zeros n) /\ length (vec_to_arr n v) = n
     /\ (length v = n -> vec_to_arr n v = v))
  /\ (forall E mk pw ha salt key nonce a tr, env_ok E -> length mk = 32 -> length salt = 16 ->
        hash E ha pw salt = Ok key -> length nonce = get_nonce_len a MemoryMode ->
        exists enc tr',
          encrypt_master_key E mk key nonce a tr = (Ok enc, tr') /\ length enc = 48
          /\ let k := mkSlot ha enc nonce salt in
             fst (try_keyslot E a pw k tr') = Ok mk
             /\ fst (search_keyslots E a pw 0 [k] tr') = Ok (mk, 0)
             /\ fst (decrypt_v5_master_key_with_index E [k] pw a tr')
                = (if bytes_eqb mk (zeros 32) then Err KIncorrectKey else Ok (mk, 0))).
Proof. exact wrap_holds. Qed.
Print Assumptions C55_key_wrapping.

Example C55_case :
  vec_to_arr 4 [x01; x02] = [x01; x02; x00; x00] /\ vec_to_arr 2 [x01; x02; x03] = [x01; x02]
  /\ vec_to_arr 0 [x01] = [].
Proof. repeat split. Qed.

(** C56 refuted: a file whose master key is all zeros decrypts, but no key
    operation accepts its password. *)
Theorem C56_every_master_key_refuted :
  exists E req w w',
    env_ok E /\ supported req /\ d_plan (w_in w) = [] /\ d_plan (w_out w) = []
    /\ encrypt_execute E req w = (Ok tt, w')
    /\ ok_out (decrypt_execute E false (er_raw_key req) (io_world (d_data (w_out w')))) = Some (d_data (w_in w))
    /\ forall op r, op_old op = er_raw_key req ->
         fst (run_op E op (mkWorld (dev_of (d_data (w_out w'))) (dev_of []) (dev_of []) r [])) = Err KIncorrectKey.
Proof. exact zero_key_unmanageable. Qed.
Print Assumptions C56_every_master_key_refuted.

(** C56 for every other master key: every operation succeeds with a password
    that opens a keyslot, if the KDF does not fail, and there is room for a new
    key. *)
Theorem C56_every_master_key_partial : forall E op w h slots i mk, env_ok E -> d_plan (w_in w) = [] ->
  v5_header (w_in w) h slots ->
  first_open E (ht_algorithm (h_type h)) (op_old op) slots i mk -> kdf_accepts E (op_old op) slots ->
  mk <> zeros 32 ->
  (forall x y ha, op = OpAdd x y ha -> length slots < 4) ->
  (forall new ha, op_new op = Some (new, ha) -> exists key, hash E ha new (draw (w_rng w) 0 16) = Ok key) ->
  fst (run_op E op w) = Ok tt.
Proof. exact usable_holds. Qed.
Print Assumptions C56_every_master_key_partial.

Example C56_case :
  map (fun op => fst (run_op toy op (handle kfile 0)))
    [OpVerify ex_pw; OpAdd ex_pw pw2 (Argon2id 3); OpChange ex_pw pw2 (Blake3Balloon 4); OpDelete ex_pw]
  = [Ok tt; Ok tt; Ok tt; Ok tt].
Proof. vm_compute. reflexivity. Qed.
