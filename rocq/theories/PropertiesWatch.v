(** Properties C102 and C103: what a caller is told while a file is decrypted or unpacked,
    and how much work a file can cause (crates/volaris-tools/src/{decrypt,unpack}.rs,
    crates/volaris-tools/src/key/, crates/volaris-crypto/src/{key,stream}.rs).
    Vocabulary: WatchSpec.v. *)
From Coq Require Import List Arith NArith ZArith Ascii String Bool.
From Verif Require Import Bytes Outcome IO Primitives Crypto Header HeaderSpec Stream KeyModel EncDec KeyOps.
From Verif Require Import Overwrite Hash FS Erase Archive.
From Verif Require Import ToyEnv Fixtures FileCases KeyCases FSSpec ArchiveSpec ArchiveCases ChoiceSpec KeySpec.
From Verif Require Import Watch WatchSpec WatchResults WatchCases.
Import ListNotations.
Local Open Scope nat_scope.
Local Open Scope list_scope.

(** The programs that keep a list of events are the programs of the other theorems. *)
Theorem C102_same_programs :
  (forall E bs det raw, same_steps (decrypt_execute_w E bs det raw) (decrypt_execute_bs E bs det raw))
  /\ (forall E Z pick bs sched req,
        same_steps (unpack_execute_w E Z pick bs sched req) (unpack_execute_bs E Z pick bs sched req))
  /\ (forall E old new ha, same_steps (key_add_w E old new ha) (key_add E old new ha))
  /\ (forall E old new ha, same_steps (key_change_w E old new ha) (key_change E old new ha))
  /\ (forall E old, same_steps (key_delete_w E old) (key_delete E old))
  /\ (forall E raw, same_steps (key_verify_w E raw) (key_verify E raw)).
Proof. exact same_programs. Qed.
Print Assumptions C102_same_programs.

(** C102 would like [on_decrypted_header] to be given what was authenticated.  It is not: of a
    file with one byte altered, another type is told than the file was made with, and nothing
    at all has been authenticated. *)
Theorem C102_authentic_refuted : exists E bs req content f i b t,
  env_ok E /\ fst (encrypt_execute_bs E bs req (file_world content [])) = Ok tt
  /\ f = enc_file E bs req content
  /\ fst (decrypt_execute_bs E bs false (er_raw_key req) (io_world f)) = Ok tt
  /\ let f' := firstn i f ++ b :: skipn (S i) f in
     In (HeaderTold t) (events (decrypt_execute_w E bs false (er_raw_key req)) (io_world f'))
     /\ t <> er_header_type req
     /\ w_tr (snd (decrypt_execute_bs E bs false (er_raw_key req) (io_world f'))) = [].
Proof. exact altered_told. Qed.
Print Assumptions C102_authentic_refuted.

(** C102 would also like [on_archive_info] to be given the number of files that are unpacked.
    Directories are counted, too. *)
Theorem C102_count_refuted : exists s req sched a' ps n,
  tree_ok s /\ no_faults s /\ inodes_ok s
  /\ unpack_execute toy toy_zip pick sched req (s, []) = (Ok tt, a')
  /\ (forall l, ur_ask req l = Some (map (fun _ => true) l))
  /\ filter is_told (events (unpack_execute_w toy toy_zip pick BLOCK_SIZE sched req) (s, []))
     = HeaderTold (mkHT V5 XChaCha20Poly1305 StreamMode) :: map PathAsked ps ++ [CountTold n]
  /\ n = 3 /\ List.length (filter (fun p => match stat (fst a') p with Some (NFile _) => true | _ => false end) ps) = 1.
Proof. exact count_of_directories. Qed.
Print Assumptions C102_count_refuted.

(** What does hold.  On a device that works, a type is told just when the file, or the
    detached header, starts with a header of that type. *)
Theorem C102_header_partial : forall E bs (det : bool) raw w t,
  d_plan (w_in w) = [] -> d_plan (w_hdr w) = [] ->
  let d := if det then w_hdr w else w_in w in
  (exists rest, events (decrypt_execute_w E bs det raw) w = HeaderTold t :: rest)
  <-> readable t (skipn (d_pos d) (d_data d)).
Proof. exact header_told. Qed.
Print Assumptions C102_header_partial.

(** On any device: once, before any password is hashed and anything is authenticated, and
    always if decryption succeeds; without a header nothing is hashed or authenticated. *)
Theorem C102_once_partial : forall E bs det raw w,
  let ev := events (decrypt_execute_w E bs det raw) w in
  (ev = [] \/ exists t rest, ev = HeaderTold t :: rest /\ count is_told rest = 0)
  /\ (fst (decrypt_execute_bs E bs det raw w) = Ok tt -> ev <> []).
Proof. exact header_once. Qed.
Print Assumptions C102_once_partial.

(** Unpacking tells nothing, or the header, or the header, all the paths in turn and the number
    of those accepted, directories included; the latter if it succeeds.  And the work of
    finding the key is bounded as for decrypting (C103). *)
Theorem C102_unpack_partial : forall E Z pick bs sched req a,
  let ev := events (unpack_execute_w E Z pick bs sched req) a in
  (affordable [ur_raw_key req] ev /\ count is_stretch ev <= 4)
  /\ (filter is_told ev = [] \/ (exists t, filter is_told ev = [HeaderTold t]) \/ told_order req ev)
  /\ (fst (unpack_execute_bs E Z pick bs sched req a) = Ok tt -> told_order req ev).
Proof. exact unpack_notes. Qed.
Print Assumptions C102_unpack_partial.

(** Told of a file and of one that is no file of ours; nothing is told by key verify. *)
Example C102_case :
  events (decrypt_execute_w toy 4 false ex_pw) (io_world original)
    = [HeaderTold (mkHT V5 Aes256Gcm StreamMode); Stretched (Argon2id 3) ex_pw (slice 106 16 original);
       Checked 48; Checked 20; Checked 20; Checked 17]
  /\ events (decrypt_execute_w toy 4 false ex_pw) (io_world (xde :: original)) = []
  /\ events (key_verify_w toy ex_pw) (io_world original)
    = [Stretched (Argon2id 3) ex_pw (slice 106 16 original); Checked 48].
Proof. vm_compute. repeat split. Qed.

(** C103: whatever the file is, decrypting it hashes the password at most four times, each time
    in a way of the table, and authenticates no more than the keyslots and the file. *)
Theorem C103_decrypt : forall E bs det raw w,
  let ev := events (decrypt_execute_w E bs det raw) w in
  let n := List.length (d_data (w_in w)) in
  affordable [raw] ev /\ count is_stretch ev <= 4
  /\ count is_check ev <= 5 + n / (bs + 16) /\ checked_bytes ev <= 4 * 48 + n.
Proof. exact decrypt_work. Qed.
Print Assumptions C103_decrypt.

(** Likewise the key operations; adding and changing hash the new password once. *)
Theorem C103_keys : forall E old new ha w, (exists k, In (ha, k) kdf_table) ->
  (forall m, m = key_add_w E old new ha \/ m = key_change_w E old new ha ->
     affordable [old; new] (events m w) /\ count is_stretch (events m w) <= 5
     /\ count is_check (events m w) <= 4 /\ checked_bytes (events m w) <= 4 * 48 /\ count is_told (events m w) = 0)
  /\ (forall m, m = key_delete_w E old \/ m = key_verify_w E old ->
     affordable [old] (events m w) /\ count is_stretch (events m w) <= 4
     /\ count is_check (events m w) <= 4 /\ checked_bytes (events m w) <= 4 * 48 /\ count is_told (events m w) = 0).
Proof. exact key_work. Qed.
Print Assumptions C103_keys.

(** With four keys: the fourth costs four hashes, a wrong one as many and no block, the first
    one. *)
Example C103_case :
  let f2 := after (OpAdd ex_pw pw2 (Blake3Balloon 5)) kfile in
  let f3 := after (OpAdd pw2 pw3 (Argon2id 3)) f2 in
  let f4 := after (OpAdd pw3 (repeat x66 6) (Argon2id 3)) f3 in
  map (fun p => let ev := events (decrypt_execute_w toy BLOCK_SIZE false p) (io_world f4) in
                (count is_stretch ev, count is_check ev)) [ex_pw; pw2; pw3; repeat x66 6; repeat x67 6]
  = [(1, 2); (2, 3); (3, 4); (4, 5); (4, 4)].
Proof. vm_compute. reflexivity. Qed.
