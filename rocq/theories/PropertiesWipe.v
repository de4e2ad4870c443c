(** C92: what the programs leave in memory. *)
From Coq Require Import List Arith NArith ZArith String.
From Verif Require Import Bytes Outcome IO Primitives Crypto Header KeyModel Stream EncDec KeyOps Hash.
From Verif Require Import ToyEnv Fixtures FileCases DecryptSpec DecryptCases.
From Verif Require Import Wipe WipeSpec WipeProofs WipeResults WipeCases.
Import ListNotations.
Local Open Scope nat_scope.
Local Open Scope list_scope.

(** The functions that keep book of their buffers do what those of the other
    properties do. *)
Theorem C92_same_programs : forall E bs req det old new ha H (h : hr_state H),
  same_run (encrypt_execute_m E bs req) (encrypt_execute_bs E bs req)
  /\ same_run (decrypt_execute_m E bs det old) (decrypt_execute_bs E bs det old)
  /\ same_run (key_add_m E old new ha) (key_add E old new ha)
  /\ same_run (key_change_m E old new ha) (key_change E old new ha)
  /\ same_run (key_delete_m E old) (key_delete E old)
  /\ same_run (key_verify_m E old) (key_verify E old)
  /\ same_run (hash_execute_m H bs h) (hash_execute_bs H bs h).
Proof. exact same_programs. Qed.
Print Assumptions C92_same_programs.
Example C92_same_programs_case :
  let r := encrypt_execute_m toy 16 (ex_req V5 (Argon2id 3)) (wipe_world ex_text, []) in
  fst r = Ok tt /\ d_data (w_out (fst (snd r)))
                   = d_data (w_out (snd (encrypt_execute_bs toy 16 (ex_req V5 (Argon2id 3)) (wipe_world ex_text)))).
Proof. vm_compute. split; reflexivity. Qed.

(** No secret and no master key is left in memory by encryption and decryption,
    whatever the devices, the ciphers and the files do, and however it ends. *)
Theorem C92_keys : forall E bs req det raw w,
  keys_wiped (memory_after (encrypt_execute_m E bs req) w)
  /\ keys_wiped (memory_after (decrypt_execute_m E bs det raw) w).
Proof. exact keys_results. Qed.
Print Assumptions C92_keys.
(** The secret, its copy for the keyslot, the master key, the ciphertext, the block *)
Example C92_keys_case :
  left_over (memory_after (decrypt_execute_m toy 16 false ex_pw) (wipe_world wfile))
  = [(Key, true); (Key, true); (Key, true); (Public, false); (Plain, true)].
Proof. vm_compute. reflexivity. Qed.

(** The operations on keys leave nothing at all. *)
Theorem C92_key_operations : forall E old new ha w,
  all_wiped (memory_after (key_add_m E old new ha) w)
  /\ all_wiped (memory_after (key_change_m E old new ha) w)
  /\ all_wiped (memory_after (key_delete_m E old) w)
  /\ all_wiped (memory_after (key_verify_m E old) w).
Proof. exact key_commands. Qed.
Print Assumptions C92_key_operations.
Example C92_key_operations_case :
  fst (key_add_m toy ex_pw [x31] (Argon2id 3) (wipe_world wfile, [])) = Ok tt
  /\ left_over (memory_after (key_add_m toy ex_pw [x31] (Argon2id 3)) (wipe_world wfile))
     = [(Key, true); (Key, true); (Key, true); (Key, true); (Public, true)]
  /\ fst (key_verify_m toy [x31] (wipe_world wfile, [])) = Err KIncorrectKey
  /\ left_over (memory_after (key_verify_m toy [x31]) (wipe_world wfile))
     = [(Key, true); (Key, true)].
Proof. vm_compute. tauto. Qed.

(** Encrypting leaves nothing when it succeeds; when it fails, one buffer at most. *)
Theorem C92_encrypt_partial : forall E bs req w,
  all_wiped (memory_after (encrypt_execute_m E bs req) w)
  \/ (fst (encrypt_execute_bs E bs req w) <> Ok tt
      /\ all_but_one_wiped bs (memory_after (encrypt_execute_m E bs req) w)).
Proof. exact encrypt_content. Qed.
Print Assumptions C92_encrypt_partial.
Example C92_encrypt_partial_case :
  left_over (memory_after (encrypt_execute_m toy 4 (ex_req V5 (Argon2id 3))) (wipe_world ex_text))
  = [(Key, true); (Public, false); (Plain, true); (Public, false); (Public, false); (Public, false)].
Proof. vm_compute. reflexivity. Qed.

(** Decrypting a file made of blocks the same. *)
Theorem C92_decrypt_partial : forall E bs det raw w, env_ok E -> stream_file det w ->
  all_wiped (memory_after (decrypt_execute_m E bs det raw) w)
  \/ (fst (decrypt_execute_bs E bs det raw w) <> Ok tt
      /\ all_but_one_wiped bs (memory_after (decrypt_execute_m E bs det raw) w)).
Proof. exact decrypt_content. Qed.
Print Assumptions C92_decrypt_partial.
Example C92_decrypt_partial_case :
  left_over (memory_after (decrypt_execute_m toy 16 false ex_pw) no_disk)
  = [(Key, true); (Key, true); (Key, true); (Public, false); (Plain, false)].
Proof. vm_compute. reflexivity. Qed.

(** False without "at most one buffer": when the disk is full, the block of the
    content that was read, or decrypted, stays in memory. *)
Theorem C92_failure_refuted :
  (exists E bs req w n, env_ok E /\ d_data (w_in w) <> []
     /\ In (mkCell Plain (d_data (w_in w) ++ zeros n) false)
           (memory_after (encrypt_execute_m E bs req) w))
  /\ (exists E bs det raw w c text, env_ok E /\ stream_file det w /\ text <> []
     /\ decrypt_execute_bs E bs det raw (mkWorld (w_in w) (dev_of []) (w_hdr w) (w_rng w) [])
        = (Ok tt, c) /\ d_data (w_out c) = text
     /\ In (mkCell Plain text false) (memory_after (decrypt_execute_m E bs det raw) w)).
Proof. exact failure_leaves_content. Qed.
Print Assumptions C92_failure_refuted.

(** False for files of one piece (version 3 and older): every successful
    decryption leaves the whole content in memory. *)
Theorem C92_one_piece_refuted : forall E bs det raw w w' k' h aad d',
  deserialize (if det : bool then w_hdr w else w_in w) = (Ok (h, aad), d') ->
  ht_mode (h_type h) = MemoryMode ->
  d_plan (w_out w) = [] -> d_data (w_out w) = [] -> d_pos (w_out w) = 0 ->
  decrypt_execute_m E bs det raw (w, []) = (Ok tt, (w', k')) ->
  In (mkCell Plain (d_data (w_out w')) false) k'.
Proof. exact memory_mode_stays. Qed.
Print Assumptions C92_one_piece_refuted.
Example C92_one_piece_refuted_case :
  let w := wipe_world (old_file Old3 Aes256Gcm MemoryMode ex_text) in
  fst (decrypt_execute_m toy 16 false ex_pw (w, [])) = Ok tt
  /\ In (mkCell Plain ex_text false) (memory_after (decrypt_execute_m toy 16 false ex_pw) w).
Proof. vm_compute. tauto. Qed.

(** False for hashing: a file smaller than a block stays in memory as it is. *)
Theorem C92_hash_refuted : forall H bs h d, d_plan d = [] -> List.length (d_data d) < bs ->
  memory_after (hash_execute_m H bs h) d
  = [mkCell Plain (d_data d ++ zeros (bs - List.length (d_data d))) false].
Proof. exact hash_stays. Qed.
Print Assumptions C92_hash_refuted.
Example C92_hash_refuted_case :
  memory_after (hash_execute_m (Blake3Hasher (fun l => l)) 16 []) (mkDev ex_text 5 [] [])
  = [mkCell Plain (ex_text ++ zeros 7) false].
Proof. vm_compute. reflexivity. Qed.
