(** Counterexamples and fixtures for PropertiesKey.v. *)
From Coq Require Import List Arith NArith ZArith Lia Bool.
From Verif Require Import Bytes Outcome IO Primitives Crypto Header Stream KeyModel EncDec KeyOps HeaderOps.
From Verif Require Import BytesFacts IOSpec IOFacts HeaderSpec.
From Verif Require Import StreamSpec FileSpec KeySpec ToyEnv Fixtures FileCases.
Local Open Scope nat_scope.

Definition pw2 : bytes := [x32].
Definition pw3 : bytes := [x33; x33].

(** An encrypted file (of one block, so that the block size does not matter), and
    what a password gives for a file. *)
Definition kfile : bytes := enc_file toy BLOCK_SIZE (ex_req V5 (Argon2id 3)) ex_text.
Definition dec_with (pw data : bytes) : option bytes :=
  ok_out (decrypt_execute_bs toy 64 false pw (io_world data)).
Definition handle (data : bytes) (p : nat) : world :=
  mkWorld (dev_at data p) (dev_of []) (dev_of []) (fun n => ex_rng (n + 100)) [].
Definition after (op : key_op) (data : bytes) : bytes :=
  d_data (w_in (snd (run_op toy op (handle data 0)))).

Lemma pair_fst : forall {A B} (x : A * B) a, fst x = a -> x = (a, snd x).
Proof. intros A B [a b] c H. cbn in *. now subst. Qed.
Ltac run := first [apply pair_fst; vm_compute; reflexivity | vm_compute; reflexivity].

(** The same with a non-zero byte in the header's padding, and sealed so. *)
Definition padded : bytes :=
  let hd := firstn 31 kfile ++ [x01] in
  let mk := draw ex_rng 16 32 in
  hd ++ slice 32 384 kfile
  ++ ex_text ++ toy_tag Aes256Gcm mk (le31_nonce (slice 6 8 kfile) 0 true) hd ex_text.

Lemma add_normalises :
  exists E old new ha w w',
    env_ok E /\ d_plan (w_in w) = [] /\ d_pos (w_in w) = 0
    /\ ok_out (decrypt_execute E false old (io_world (d_data (w_in w)))) = Some ex_text
    /\ key_add E old new ha w = (Ok tt, w')
    /\ fst (decrypt_execute E false old (io_world (d_data (w_in w')))) = Err DecDecryptData
    /\ fst (decrypt_execute E false new (io_world (d_data (w_in w')))) = Err DecDecryptData.
Proof.
  exists toy, ex_pw, pw2, (Argon2id 3), (handle padded 0). exists (snd (key_add toy ex_pw pw2 (Argon2id 3) (handle padded 0))).
  split; [exact toy_ok|]. do 2 (split; [reflexivity|]).
  split; [run|]. split; [run|].
  split; run.
Qed.

Lemma change_normalises :
  exists E old new ha w w',
    env_ok E /\ d_plan (w_in w) = [] /\ d_pos (w_in w) = 0
    /\ ok_out (decrypt_execute E false old (io_world (d_data (w_in w)))) = Some ex_text
    /\ key_change E old new ha w = (Ok tt, w')
    /\ fst (decrypt_execute E false new (io_world (d_data (w_in w')))) = Err DecDecryptData.
Proof.
  exists toy, ex_pw, pw2, (Argon2id 3), (handle padded 0). exists (snd (key_change toy ex_pw pw2 (Argon2id 3) (handle padded 0))).
  split; [exact toy_ok|]. do 2 (split; [reflexivity|]).
  split; [run|]. split; run.
Qed.

Lemma delete_last :
  exists E old w w',
    env_ok E /\ d_plan (w_in w) = [] /\ d_pos (w_in w) = 0
    /\ ok_out (decrypt_execute E false old (io_world (d_data (w_in w)))) = Some ex_text
    /\ key_delete E old w = (Ok tt, w')
    /\ forall pw v, w_in v = dev_of (d_data (w_in w')) ->
         fst (decrypt_execute E false pw v) = Err DecDecryptMasterKey.
Proof.
  exists toy, ex_pw, (handle kfile 0). exists (snd (key_delete toy ex_pw (handle kfile 0))).
  split; [exact toy_ok|]. do 2 (split; [reflexivity|]).
  split; [run|]. split; [run|].
  intros pw [vi vo vh vr vt] Hi. cbn [w_in] in Hi. subst vi. vm_compute. reflexivity.
Qed.

(** A file whose master key came out as zeros. *)
Definition zfile : bytes :=
  d_data (w_out (snd (encrypt_execute toy (ex_req V5 (Argon2id 3)) (io_world ex_text)))).

Lemma verify_zero_key :
  exists E pw w h aad d',
    env_ok E /\ d_plan (w_in w) = []
    /\ deserialize (w_in w) = (Ok (h, aad), d') /\ ht_version (h_type h) = V5
    /\ fst (decrypt_master_key E pw h []) = Ok (zeros 32)
    /\ ok_out (decrypt_execute E false pw (io_world (d_data (w_in w)))) = Some ex_text
    /\ fst (key_verify E pw w) = Err KIncorrectKey.
Proof.
  exists toy, ex_pw, (handle zfile 0). eexists. eexists. eexists.
  split; [exact toy_ok|]. split; [reflexivity|]. split; [run|].
  split; [reflexivity|]. split; [run|]. split; run.
Qed.

Lemma zero_key_unmanageable :
  exists E req w w',
    env_ok E /\ supported req /\ d_plan (w_in w) = [] /\ d_plan (w_out w) = []
    /\ encrypt_execute E req w = (Ok tt, w')
    /\ ok_out (decrypt_execute E false (er_raw_key req) (io_world (d_data (w_out w')))) = Some (d_data (w_in w))
    /\ forall op r, op_old op = er_raw_key req ->
         fst (run_op E op (mkWorld (dev_of (d_data (w_out w'))) (dev_of []) (dev_of []) r [])) = Err KIncorrectKey.
Proof.
  exists toy, (ex_req V5 (Argon2id 3)), (io_world ex_text). exists (snd (encrypt_execute toy (ex_req V5 (Argon2id 3)) (io_world ex_text))).
  split; [exact toy_ok|].
  split; [split; [cbn; tauto|]; split; [reflexivity|cbn; tauto]|].
  split; [reflexivity|]. split; [reflexivity|].
  split; [run|]. split; [run|].
  intros op r Ho. destruct op; cbn [op_old er_raw_key ex_req] in Ho; subst; run.
Qed.

(** ** Crashes *)

(** The rewrite for adding a key, stopped between the identifier bytes. *)
Lemma add_torn :
  exists E old new ha w w' n,
    env_ok E /\ d_plan (w_in w) = [] /\ d_pos (w_in w) = 0
    /\ canonical_v5 Aes256Gcm StreamMode (slice 0 416 (d_data (w_in w)))
    /\ ok_out (decrypt_execute E false old (io_world (d_data (w_in w)))) = Some ex_text
    /\ key_add E old new ha w = (Ok tt, w')
    /\ ok_out (decrypt_execute E false old (io_world (d_data (w_in w')))) = Some ex_text
    /\ n <= 416
    /\ forall pw v, w_in v = dev_of (torn 0 n (d_data (w_in w)) (d_data (w_in w'))) ->
         fst (decrypt_execute E false pw v) = Err DecDeserializeHeader.
Proof.
  exists toy, ex_pw, pw2, (Argon2id 3), (handle kfile 0). exists (snd (key_add toy ex_pw pw2 (Argon2id 3) (handle kfile 0))). exists 129.
  split; [exact toy_ok|]. do 2 (split; [reflexivity|]).
  split.
  { split; [run|]. split; [run|]. exists 1. split; [lia|]. split; [|run].
    intros i Hi. assert (i = 0) as -> by lia. split; [run|]. split; run. }
  split; [run|]. split; [run|]. split; [run|].
  split; [lia|].
  intros pw [vi vo vh vr vt] Hi. cbn [w_in] in Hi. subst vi. vm_compute. reflexivity.
Qed.

(** Changing a password to itself, stopped inside the keyslot: no key is left. *)
Lemma change_self_torn :
  exists E pw ha w w' n,
    env_ok E /\ d_plan (w_in w) = [] /\ d_pos (w_in w) = 0 /\ n <= 416
    /\ ok_out (decrypt_execute E false pw (io_world (d_data (w_in w)))) = Some ex_text
    /\ key_change E pw pw ha w = (Ok tt, w')
    /\ ok_out (decrypt_execute E false pw (io_world (d_data (w_in w')))) = Some ex_text
    /\ fst (decrypt_execute E false pw (io_world (torn 0 n (d_data (w_in w)) (d_data (w_in w')))))
       = Err DecDecryptMasterKey.
Proof.
  exists toy, ex_pw, (Blake3Balloon 5), (handle kfile 0). exists (snd (key_change toy ex_pw ex_pw (Blake3Balloon 5) (handle kfile 0))). exists 100.
  split; [exact toy_ok|]. do 2 (split; [reflexivity|]). split; [lia|].
  split; [run|]. split; [run|]. split; run.
Qed.

(** A file with two keys whose wrapped keys start with the byte that marks a
    keyslot. *)
Definition dfile : bytes :=
  let w := mkWorld (dev_of ex_text) (dev_of []) (dev_of [])
             (fun n => if n =? 16 then xdf else ex_rng n) [] in
  after (OpAdd ex_pw pw2 (Argon2id 3))
        (d_data (w_out (snd (encrypt_execute toy (ex_req V5 (Argon2id 3)) w)))).

Lemma delete_torn :
  exists E old pw w w' n,
    env_ok E /\ d_plan (w_in w) = [] /\ d_pos (w_in w) = 0 /\ n <= 416
    /\ ok_out (decrypt_execute E false pw (io_world (d_data (w_in w)))) = Some ex_text
    /\ key_delete E old w = (Ok tt, w')
    /\ ok_out (decrypt_execute E false pw (io_world (d_data (w_in w')))) = Some ex_text
    /\ fst (decrypt_execute E false pw (io_world (torn 0 n (d_data (w_in w)) (d_data (w_in w')))))
       = Err DecDeserializeHeader.
Proof.
  exists toy, pw2, ex_pw, (handle dfile 0). exists (snd (key_delete toy pw2 (handle dfile 0))). exists 130.
  split; [exact toy_ok|]. do 2 (split; [reflexivity|]). split; [lia|].
  split; [run|]. split; [run|]. split; run.
Qed.

(** ** Short writes *)

Definition short_handle (d : bytes) : dev := mkDev d 0 [EvShort 100] [].

Lemma header_short :
  exists h d d' b, wf_header h /\ serialize h = Ok b /\ length b = 416 /\ d_data d = []
    /\ header_write h d = (Ok tt, d') /\ d_data d' = firstn 100 b.
Proof.
  exists (mkHeader (mkHT V5 Aes256Gcm StreamMode) ex_nonce None (Some [])), (short_handle []).
  eexists. eexists. split.
  { right. right. split; [reflexivity|]. split; [reflexivity|]. exists []. split; [reflexivity|]. split; [cbn; lia|constructor]. }
  split; [run|]. split; [run|]. split; [reflexivity|].
  split; run.
Qed.

Lemma encrypt_short :
  exists E req w w', env_ok E /\ supported req /\ er_detached req = false
    /\ d_data (w_out w) = [] /\ encrypt_execute E req w = (Ok tt, w')
    /\ length (d_data (w_out w')) = 100 + length (d_data (w_in w)) + 16
    /\ fst (decrypt_execute E false (er_raw_key req) (io_world (d_data (w_out w')))) = Err DecDeserializeHeader.
Proof.
  exists toy, (ex_req V5 (Argon2id 3)),
    (mkWorld (dev_of ex_text) (mkDev [] 0 [EvFull; EvShort 100] []) (dev_of []) ex_rng []). exists (snd (encrypt_execute toy (ex_req V5 (Argon2id 3)) (mkWorld (dev_of ex_text) (mkDev [] 0 [EvFull; EvShort 100] []) (dev_of []) ex_rng []))).
  split; [exact toy_ok|].
  split; [split; [cbn; tauto|]; split; [reflexivity|cbn; tauto]|].
  split; [reflexivity|]. split; [reflexivity|].
  split; [run|]. split; run.
Qed.

(** ** Restore onto a short target *)

Lemma restore_short :
  exists w w', d_plan (w_in w) = [] /\ d_plan (w_out w) = [] /\ d_pos (w_out w) = 0
    /\ length (d_data (w_out w)) = 1
    /\ header_restore w = (Ok tt, w') /\ length (d_data (w_out w')) = 416.
Proof.
  exists (two_files (firstn 416 kfile) [x00]). exists (snd (header_restore (two_files (firstn 416 kfile) [x00]))).
  do 4 (split; [reflexivity|]). split; run.
Qed.

(** A short read is taken for the whole area: data is overwritten. *)
Lemma restore_short_read :
  exists w w', d_plan (w_in w) = [] /\ d_pos (w_out w) = 0
    /\ d_data (w_out w) = [x00] ++ repeat x2a 500
    /\ header_restore w = (Ok tt, w')
    /\ firstn 416 (d_data (w_out w')) = firstn 416 (d_data (w_in w)).
Proof.
  exists (mkWorld (dev_of kfile) (mkDev ([x00] ++ repeat x2a 500) 0 [EvShort 0] []) (dev_of []) no_rng []).
  exists (snd (header_restore (mkWorld (dev_of kfile) (mkDev ([x00] ++ repeat x2a 500) 0 [EvShort 0] []) (dev_of []) no_rng []))). do 3 (split; [reflexivity|]). split; run.
Qed.
