(** Counterexamples and fixtures for PropertiesFile.v. *)
From Coq Require Import List Arith NArith ZArith Lia Bool.
From Verif Require Import Bytes Outcome IO Primitives Crypto Header Stream KeyModel EncDec.
From Verif Require Import BytesFacts IOSpec IOFacts HeaderSpec.
From Verif Require Import StreamSpec FileSpec FileProofs ToyEnv Fixtures.
Local Open Scope nat_scope.

(** What an operation left on the output, if it succeeded. *)
Definition ok_out {E A} (r : outcome E A * world) : option bytes :=
  match r with (Ok _, w) => Some (d_data (w_out w)) | _ => None end.

Definition enc_file (E : env) (bs : nat) (req : enc_request) (i : bytes) : bytes :=
  d_data (w_out (snd (encrypt_execute_bs E bs req (file_world i [])))).

(** An environment with authentication tags of zeros: it satisfies the laws,
    and shows what happens when a tag is all zero. *)
Definition zero_tags : env := {|
  aead_enc := fun _ _ _ _ m => Some (m ++ zeros 16);
  aead_dec := fun _ _ _ _ c =>
    if 16 <=? length c then Some (firstn (length c - 16) c) else None;
  argon2id := fun m t p pw s => Some (toy_kdf 1000 m t p pw s);
  balloon := fun m t p pw s => Some (toy_kdf 2000 m t p pw s);
  counter_max := 268435455
|}.

Lemma zero_tags_ok : env_ok zero_tags.
Proof.
  constructor; cbn [aead_enc aead_dec argon2id balloon counter_max zero_tags].
  - intros a k n ad m c H. inversion H; subst.
    rewrite app_length, zeros_length.
    destruct (Nat.leb_spec 16 (length m + 16)); [|lia].
    replace (length m + 16 - 16) with (length m) by lia.
    now rewrite firstn_app_exact.
  - intros a k n ad m c H. inversion H; subst. now rewrite app_length, zeros_length.
  - intros a k n ad m c H.
    destruct (Nat.leb_spec 16 (length c)); [|discriminate]. inversion H; subst.
    rewrite firstn_length. lia.
  - discriminate.
  - intros m t p pw s k H. inversion H; subst. reflexivity.
  - intros m t p pw s k H. inversion H; subst. reflexivity.
  - reflexivity.
Qed.

Definition det_req : enc_request :=
  mkEncReq true ex_pw (mkHT V5 Aes256Gcm StreamMode) (Blake3Balloon 5).

Lemma detached_not_restored :
  exists E req w w' v,
    env_ok E /\ ht_version (er_header_type req) = V5 /\ ht_mode (er_header_type req) = StreamMode
    /\ er_detached req = true
    /\ d_plan (w_in w) = [] /\ d_plan (w_out w) = [] /\ d_plan (w_hdr w) = []
    /\ encrypt_execute E req w = (Ok tt, w')
    /\ w_in v = dev_of (d_data (w_out w')) /\ w_hdr v = dev_of (d_data (w_hdr w'))
    /\ w_out v = dev_of []
    /\ fst (decrypt_execute E true (er_raw_key req) v) = Err DecDecryptData.
Proof.
  exists zero_tags, det_req, (file_world [] []). eexists.
  eexists (mkWorld _ _ _ no_rng []).
  split; [exact zero_tags_ok|]. do 6 (split; [reflexivity|]).
  split; [vm_compute; reflexivity|]. cbn [w_in w_hdr w_out].
  split; [reflexivity|]. split; [reflexivity|]. split; [reflexivity|]. vm_compute. reflexivity.
Qed.

(** From the bytes of an AES-GCM V5 file: a V1 memory-mode file whose content is
    the first keyslot. *)
Definition downgraded (f : bytes) : bytes :=
  tag_bytes (mkHT V1 Aes256Gcm MemoryMode) ++ slice 106 16 f ++ zeros 16
  ++ slice 82 12 f ++ zeros 14 ++ slice 34 48 f.

Lemma downgrade_accepted :
  exists E req w w' v v',
    env_ok E /\ supported req /\ w_tr w = [] /\ w_tr v = []
    /\ encrypt_execute E req w = (Ok tt, w')
    /\ w_in v = dev_of (downgraded (d_data (w_out w'))) /\ w_out v = dev_of []
    /\ decrypt_execute E false (er_raw_key req) v = (Ok tt, v')
    /\ d_data (w_out v') = draw (w_rng w) 16 32
    /\ d_data (w_out v') <> d_data (w_in w)
    /\ forall c, In c (opened (w_tr v')) -> In c (sealed (w_tr w')).
Proof.
  exists toy, (ex_req V5 (Argon2id 1)), (file_world ex_text []). eexists.
  eexists (mkWorld _ _ (dev_of []) no_rng []). eexists.
  split; [exact toy_ok|].
  split; [split; [cbn; tauto|]; split; [reflexivity|cbn; tauto]|].
  split; [reflexivity|]. split; [reflexivity|].
  split; [vm_compute; reflexivity|]. cbn [w_in w_hdr w_out].
  split; [reflexivity|]. split; [reflexivity|].
  split; [vm_compute; reflexivity|].
  split; [vm_compute; reflexivity|]. split; [vm_compute; discriminate|].
  intros c Hc. vm_compute in Hc. destruct Hc as [<-|[]]. vm_compute. left. reflexivity.
Qed.

Lemma v4_other_hash_fails :
  exists E req w w' v,
    env_ok E /\ supported req /\ ht_version (er_header_type req) = V4
    /\ d_plan (w_in w) = [] /\ d_plan (w_out w) = []
    /\ encrypt_execute E req w = (Ok tt, w')
    /\ w_in v = dev_of (d_data (w_out w')) /\ w_out v = dev_of []
    /\ fst (decrypt_execute E false (er_raw_key req) v) = Err DecDecryptMasterKey.
Proof.
  exists toy, (ex_req V4 (Argon2id 3)), (file_world ex_text []). eexists.
  eexists (mkWorld _ _ (dev_of []) no_rng []).
  split; [exact toy_ok|].
  split; [split; [cbn; tauto|]; split; [reflexivity|cbn; tauto]|].
  do 3 (split; [reflexivity|]).
  split; [vm_compute; reflexivity|]. cbn [w_in w_hdr w_out].
  split; [reflexivity|]. split; [reflexivity|]. vm_compute. reflexivity.
Qed.

Lemma v3_request_panics :
  exists E req w, env_ok E /\ ~ supported req
    /\ d_plan (w_in w) = [] /\ d_plan (w_out w) = []
    /\ fst (encrypt_execute E req w) = Panic.
Proof.
  exists toy, (ex_req V3 (Argon2id 3)), (file_world ex_text []).
  split; [exact toy_ok|]. split; [intros ([H|[H|[]]] & _); discriminate|].
  split; [reflexivity|]. split; [reflexivity|]. vm_compute. reflexivity.
Qed.

Lemma old_output_remains :
  exists E req w w', env_ok E /\ supported req
    /\ d_plan (w_in w) = [] /\ d_plan (w_out w) = []
    /\ encrypt_execute E req w = (Ok tt, w')
    /\ skipn (416 + 9 + 16) (d_data (w_out w')) = [x2a; x2a]
    /\ (forall v, w_in v = dev_of (d_data (w_out w')) -> w_out v = dev_of [] ->
          fst (decrypt_execute E false (er_raw_key req) v) = Err DecDecryptData).
Proof.
  exists toy, (ex_req V5 (Argon2id 3)), (file_world ex_text (repeat x2a 443)). eexists.
  split; [exact toy_ok|].
  split; [split; [cbn; tauto|]; split; [reflexivity|cbn; tauto]|].
  split; [reflexivity|]. split; [reflexivity|].
  split; [vm_compute; reflexivity|]. split; [vm_compute; reflexivity|].
  intros [vi vo vh vr vt] Hi Ho. cbn [w_in w_out] in Hi, Ho. subst vi vo.
  vm_compute. reflexivity.
Qed.

Lemma downgrade_output :
  exists E req w w' v o v',
    env_ok E /\ supported req /\ w_tr w = [] /\ w_tr v = []
    /\ encrypt_execute E req w = (Ok tt, w') /\ d_plan (w_in w) = []
    /\ w_out v = dev_of [] /\ decrypt_execute E false (er_raw_key req) v = (o, v')
    /\ ~ prefix_of (d_data (w_out v')) (d_data (w_in w))
    /\ forall c, In c (opened (w_tr v')) -> In c (sealed (w_tr w')).
Proof.
  exists toy, (ex_req V5 (Argon2id 1)), (file_world ex_text []). eexists.
  eexists (mkWorld (dev_of (downgraded (enc_file toy BLOCK_SIZE (ex_req V5 (Argon2id 1)) ex_text)))
             (dev_of []) (dev_of []) no_rng []). eexists. eexists.
  split; [exact toy_ok|].
  split; [split; [cbn; tauto|]; split; [reflexivity|cbn; tauto]|].
  split; [reflexivity|]. split; [reflexivity|].
  split; [vm_compute; reflexivity|]. split; [reflexivity|]. split; [reflexivity|].
  split; [vm_compute; reflexivity|]. split.
  - intros (c & Hc). vm_compute in Hc. discriminate Hc.
  - intros c Hc. vm_compute in Hc. destruct Hc as [<-|[]]. vm_compute. left. reflexivity.
Qed.
