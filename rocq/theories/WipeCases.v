(** Fixtures and counterexamples for PropertiesWipe.v. *)
From Coq Require Import List Arith NArith ZArith.
From Verif Require Import Bytes Outcome IO Primitives Crypto Header KeyModel Stream EncDec KeyOps.
From Verif Require Import ToyEnv Fixtures FileCases DecryptSpec DecryptCases Wipe WipeSpec.
Import ListNotations.
Local Open Scope nat_scope.
Local Open Scope list_scope.

(** A disk that takes the header and fails then *)
Definition full_disk : world :=
  mkWorld (dev_of ex_text) (mkDev [] 0 [EvFull; EvFull; EvFail] []) (dev_of []) ex_rng [].
Definition wfile : bytes := enc_file toy 16 (ex_req V5 (Argon2id 3)) ex_text.
(** One that fails at once *)
Definition no_disk : world :=
  mkWorld (dev_of wfile) (mkDev [] 0 [EvFail] []) (dev_of []) ex_rng [].
Definition wipe_world (i : bytes) : world :=
  mkWorld (dev_of i) (dev_of []) (dev_of []) ex_rng [].

(** What is left, in short: for each buffer, its label and whether it is zero *)
Definition left_over (k : memory) : list (label * bool) :=
  map (fun c => (c_label c, all_zero (c_bytes c) && negb (c_live c))%bool) k.

Lemma full_disk_leaves :
  In (mkCell Plain (ex_text ++ zeros 7) false)
     (memory_after (encrypt_execute_m toy 16 (ex_req V5 (Argon2id 3))) full_disk).
Proof. vm_compute. tauto. Qed.
Lemma no_disk_leaves :
  In (mkCell Plain ex_text false) (memory_after (decrypt_execute_m toy 16 false ex_pw) no_disk).
Proof. vm_compute. tauto. Qed.
Lemma no_disk_stream : stream_file false no_disk.
Proof.
  intros h aad d' H. vm_compute in H. injection H as <- _ _. reflexivity.
Qed.
Lemma failure_leaves_content :
  (exists E bs req w n, env_ok E /\ d_data (w_in w) <> []
     /\ In (mkCell Plain (d_data (w_in w) ++ zeros n) false)
           (memory_after (encrypt_execute_m E bs req) w))
  /\ (exists E bs det raw w c text, env_ok E /\ stream_file det w /\ text <> []
     /\ decrypt_execute_bs E bs det raw (mkWorld (w_in w) (dev_of []) (w_hdr w) (w_rng w) [])
        = (Ok tt, c) /\ d_data (w_out c) = text
     /\ In (mkCell Plain text false) (memory_after (decrypt_execute_m E bs det raw) w)).
Proof.
  split.
  - exists toy, 16, (ex_req V5 (Argon2id 3)), full_disk, 7. split; [exact toy_ok|].
    split; [discriminate|exact full_disk_leaves].
  - exists toy, 16, false, ex_pw, no_disk. eexists. exists ex_text. split; [exact toy_ok|].
    split; [exact no_disk_stream|]. split; [discriminate|].
    split; [vm_compute; reflexivity|]. split; [reflexivity|exact no_disk_leaves].
Qed.
