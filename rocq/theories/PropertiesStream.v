(** Streaming properties C09-C16
    (crates/volaris-crypto/src/stream.rs).  Vocabulary: IOSpec.v, StreamSpec.v.
    [encrypt_file] and [decrypt_file] are the code's functions, with the block
    size of 1048576 bytes; the multi-block examples run the same model with a
    small block size. *)
From Coq Require Import List Arith NArith Lia Bool.
From Verif Require Import Bytes Outcome IO Primitives Crypto Stream.
From Verif Require Import IOSpec StreamSpec StreamFacts StreamProofs ToyEnv Fixtures.
Local Open Scope nat_scope.

Example ex_stream_ok : enc_stream_initialize ex_key ex_nonce Aes256Gcm = Ok ex_stream.
Proof. reflexivity. Qed.

(** C09: decrypting what encryption wrote gives the input back. *)
Theorem C09_stream_round_trip : forall E key nonce a s aad w,
  env_ok E -> enc_stream_initialize key nonce a = Ok s -> length aad <= 1000 ->
  d_plan (w_in w) = [] -> d_plan (w_out w) = [] ->
  let p := rest (w_in w) in
  (N.of_nat (length p / BLOCK_SIZE) <= counter_max E)%N ->
  exists w' ct,
    encrypt_file E s aad w = (Ok tt, w')
    /\ wrote (w_out w) (w_out w') ct
    /\ is_ciphertext E a key nonce aad BLOCK_SIZE p ct
    /\ dec_stream_initialize key nonce a = Ok s
    /\ forall v, d_plan (w_in v) = [] -> d_plan (w_out v) = [] -> rest (w_in v) = ct ->
         exists v', decrypt_file E s aad v = (Ok tt, v') /\ wrote (w_out v) (w_out v') p.
Proof. exact stream_round_trip. Qed.
Print Assumptions C09_stream_round_trip.

(** Empty input, one short block, an exact multiple, and a multiple plus one. *)
Example C09_case :
  forallb (fun p =>
    match written_by (encrypt_file_bs toy 4 ex_stream [x01] (io_world p)) with
    | Some ct =>
        match written_by (decrypt_file_bs toy 4 ex_stream [x01] (io_world ct)) with
        | Some p' => bytes_eqb p p'
        | None => false
        end
    | None => false
    end) [[]; [x61]; firstn 8 ex_text; ex_text] = true.
Proof. vm_compute. reflexivity. Qed.

Example C09_case_real_block :
  exists w', encrypt_file toy ex_stream [x01] (io_world ex_text) = (Ok tt, w')
  /\ length (d_data (w_out w')) = 25
  /\ written_by (decrypt_file toy ex_stream [x01] (io_world (d_data (w_out w')))) = Some ex_text.
Proof. eexists. split; [vm_compute; reflexivity|]. split; vm_compute; reflexivity. Qed.

(** C10: length of the ciphertext. *)
Theorem C10_ciphertext_length : forall E key nonce a s aad w w',
  env_ok E -> enc_stream_initialize key nonce a = Ok s ->
  d_plan (w_in w) = [] ->
  encrypt_file E s aad w = (Ok tt, w') ->
  exists ct, wrote (w_out w) (w_out w') ct
    /\ length ct = length (rest (w_in w)) + 16 * (length (rest (w_in w)) / BLOCK_SIZE + 1).
Proof. exact ciphertext_length. Qed.
Print Assumptions C10_ciphertext_length.

(** In numbers. *)
Theorem C10_ciphertext_bytes : forall E key nonce a s aad w w',
  env_ok E -> enc_stream_initialize key nonce a = Ok s ->
  d_plan (w_in w) = [] ->
  encrypt_file E s aad w = (Ok tt, w') ->
  exists ct, wrote (w_out w) (w_out w') ct
    /\ let n := N.of_nat (length (rest (w_in w))) in
       N.of_nat (length ct) = (n + 16 * (n / 1048576 + 1))%N.
Proof. exact ciphertext_bytes. Qed.
Print Assumptions C10_ciphertext_bytes.

Example C10_case :
  map (fun p => option_map (@length byte)
         (written_by (encrypt_file_bs toy 4 ex_stream [] (io_world p))))
      [[]; firstn 3 ex_text; firstn 4 ex_text; ex_text]
  = [Some 16; Some 19; Some 36; Some 57].
Proof. vm_compute. reflexivity. Qed.

(** C11: every AEAD call of one encryption has its own nonce, for every
    behaviour of the devices and every outcome; two streams with different
    base nonces never share one. *)
Theorem C11_nonces_unique : forall E key nonce a s aad w o w',
  env_ok E -> enc_stream_initialize key nonce a = Ok s -> w_tr w = [] ->
  encrypt_file E s aad w = (o, w') ->
  let used := map c_nonce (sealed (w_tr w')) in
  NoDup used
  /\ Forall (fun n => length n = get_nonce_len a MemoryMode) used
  /\ Forall (fun c => c_key c = key /\ c_alg c = a /\ c_aad c = aad) (sealed (w_tr w'))
  /\ (exists n, (N.of_nat n <= counter_max E)%N
        /\ prefix_of used (stream_nonces nonce n)
        /\ (o = Ok tt -> used = stream_nonces nonce n))
  /\ (forall nonce' n', nonce' <> nonce -> length nonce' = length nonce ->
        (N.of_nat n' <= counter_max E)%N ->
        forall x, In x used -> ~ In x (stream_nonces nonce' n')).
Proof. exact nonces_unique. Qed.
Print Assumptions C11_nonces_unique.

Example C11_case :
  map c_nonce (sealed (w_tr (snd (encrypt_file_bs toy 4 ex_stream [] (io_world ex_text)))))
  = [ex_nonce ++ [x00; x00; x00; x00]; ex_nonce ++ [x01; x00; x00; x00];
     ex_nonce ++ [x02; x00; x00; x80]].
Proof. vm_compute. reflexivity. Qed.

(** C12: a decryption that succeeds has read exactly the ciphertext the honest
    run wrote, with the honest AAD, and written the plaintext; otherwise the
    AEAD accepted a forgery. *)
Theorem C12_stream_integrity : forall E key nonce a s aad w w',
  env_ok E -> enc_stream_initialize key nonce a = Ok s -> w_tr w = [] ->
  encrypt_file E s aad w = (Ok tt, w') ->
  exists ct,
  wrote (w_out w) (w_out w') ct /\
  let p := consumed (w_in w) (w_in w') in
  is_ciphertext E a key nonce aad BLOCK_SIZE p ct /\
  forall aad' v v',
  w_tr v = [] -> decrypt_file E s aad' v = (Ok tt, v') ->
  (exists c, In c (opened (w_tr v')) /\ forgery E (w_tr w') c)
  \/ (wrote (w_out v) (w_out v') p /\ aad' = aad
      /\ consumed (w_in v) (w_in v') = ct
      /\ (no_short (d_plan (w_in v)) -> rest (w_in v) = ct)).
Proof. exact stream_integrity_holds. Qed.
Print Assumptions C12_stream_integrity.

(** Truncated, extended, reordered, bit-flipped, empty and honest ciphertexts
    under the toy environment. *)
Example C12_case :
  match written_by (encrypt_file_bs toy 4 ex_stream [x01] (io_world ex_text)) with
  | Some ct =>
      let a := firstn 20 ct in let b := firstn 20 (skipn 20 ct) in let c := skipn 40 ct in
      map (fun x => match written_by (decrypt_file_bs toy 4 ex_stream [x01] (io_world x)) with
                    | Some p => bytes_eqb p ex_text | None => false end)
          [a ++ b ++ c; a ++ b; a; a ++ c; b ++ a ++ c; ct ++ [x00]; []; x00 :: skipn 1 ct]
      = [true; false; false; false; false; false; false; false]
      /\ written_by (decrypt_file_bs toy 4 ex_stream [x02] (io_world ct)) = None
  | None => False
  end.
Proof. vm_compute. split; reflexivity. Qed.

(** C13: for every input, AAD, fault schedule and outcome, what has been
    written is a first part of the plaintext, made of whole blocks unless a
    write failed. *)
Theorem C13_only_authentic_output : forall E key nonce a s aad w w',
  env_ok E -> enc_stream_initialize key nonce a = Ok s -> w_tr w = [] ->
  encrypt_file E s aad w = (Ok tt, w') ->
  let p := consumed (w_in w) (w_in w') in
  forall aad' v o v',
  w_tr v = [] -> decrypt_file E s aad' v = (o, v') ->
  exists written, wrote (w_out v) (w_out v') written /\
  ((exists c, In c (opened (w_tr v')) /\ forgery E (w_tr w') c)
   \/ (prefix_of written p
       /\ (written <> [] -> aad' = aad)
       /\ (o <> Err SWrite -> written = p \/ exists n, written = firstn (n * BLOCK_SIZE) p))).
Proof. exact only_authentic_output_holds. Qed.
Print Assumptions C13_only_authentic_output.

(** A flipped bit in the third block: the first two are released. *)
Example C13_case :
  match written_by (encrypt_file_bs toy 4 ex_stream [x01] (io_world ex_text)) with
  | Some ct =>
      let r := decrypt_file_bs toy 4 ex_stream [x01]
                 (io_world (firstn 40 ct ++ x00 :: skipn 41 ct)) in
      fst r = Err SCrypt /\ d_data (w_out (snd r)) = firstn 8 ex_text
  | None => False
  end.
Proof. vm_compute. split; reflexivity. Qed.

(** C14 is false: a reader that returns a short read in the middle (a pipe) is
    encrypted only up to there, with success. *)
Theorem C14_whole_input_refuted :
  exists E s key nonce a w w',
    env_ok E /\ enc_stream_initialize key nonce a = Ok s
    /\ d_plan (w_out w) = [] /\ ~ In EvFail (d_plan (w_in w))
    /\ encrypt_file E s [] w = (Ok tt, w')
    /\ rest (w_in w) = ex_text
    /\ forall v, w_in v = dev_of (d_data (w_out w')) -> d_plan (w_out v) = [] ->
         w_out v = dev_of [] ->
         exists v', decrypt_file E s [] v = (Ok tt, v')
           /\ d_data (w_out v') = firstn 1 ex_text.
Proof.
  exists toy, ex_stream, ex_key, ex_nonce, Aes256Gcm.
  exists (mkWorld (mkDev ex_text 0 [EvShort 0] []) (dev_of []) (dev_of []) no_rng []).
  eexists. split; [exact toy_ok|]. split; [reflexivity|]. split; [reflexivity|].
  split; [cbn; intros [H|[]]; discriminate|].
  split; [vm_compute; reflexivity|]. split; [reflexivity|].
  intros v Hi Hp Ho. destruct v as [vi vo vh vr vt]. cbn [w_in w_out] in Hi, Ho. subst vi vo.
  eexists. split; vm_compute; reflexivity.
Qed.
Print Assumptions C14_whole_input_refuted.

(** What holds: success means the output is the ciphertext of exactly the bytes
    read, and these are all of the input if the reader makes no short reads
    (whatever else it does). *)
Theorem C14_whole_input_partial : forall E key nonce a s aad w w',
  env_ok E -> enc_stream_initialize key nonce a = Ok s -> length aad <= 1000 ->
  encrypt_file E s aad w = (Ok tt, w') ->
  exists ct, wrote (w_out w) (w_out w') ct
  /\ is_ciphertext E a key nonce aad BLOCK_SIZE (consumed (w_in w) (w_in w')) ct
  /\ (no_short (d_plan (w_in w)) -> consumed (w_in w) (w_in w') = rest (w_in w)).
Proof. exact whole_input_partial_holds. Qed.
Print Assumptions C14_whole_input_partial.

Example C14_case : exists w',
  encrypt_file toy ex_stream [] (mkWorld (mkDev ex_text 2 [EvFull] []) (dev_of [])
                                   (dev_of []) no_rng []) = (Ok tt, w')
  /\ d_pos (w_in w') = 9 /\ length (d_data (w_out w')) = 7 + 16.
Proof. eexists. split; [vm_compute; reflexivity|]. split; reflexivity. Qed.

(** C15: with well-behaved devices, encryption succeeds exactly if the number of
    the last block fits the counter, and otherwise reports an error. *)
Theorem C15_counter_never_wraps : forall E key nonce a s aad w,
  env_ok E -> enc_stream_initialize key nonce a = Ok s -> length aad <= 1000 ->
  d_plan (w_in w) = [] -> d_plan (w_out w) = [] ->
  fst (encrypt_file E s aad w)
  = if (N.of_nat (length (rest (w_in w)) / BLOCK_SIZE) <=? counter_max E)%N
    then Ok tt else Err SCrypt.
Proof. exact counter_never_wraps_holds. Qed.
Print Assumptions C15_counter_never_wraps.

(** With a counter that numbers blocks 0..2: two full blocks and a rest fit,
    three full blocks do not. *)
Example C15_case :
  map (fun n => fst (encrypt_file_bs (toy_with 2) 2 ex_stream [] (io_world (firstn n ex_text))))
      [4; 5; 6; 9]
  = [Ok tt; Ok tt; Err SCrypt; Err SCrypt].
Proof. vm_compute. reflexivity. Qed.

(** C16: for every behaviour of reader and writer. *)
Theorem C16_io_faults_reported : forall E key nonce a s aad,
  env_ok E -> enc_stream_initialize key nonce a = Ok s -> length aad <= 1000 ->
  (forall w o w', encrypt_file E s aad w = (o, w') ->
     exists written, wrote (w_out w) (w_out w') written
     /\ match o with
        | Ok _ => is_ciphertext E a key nonce aad BLOCK_SIZE
                    (consumed (w_in w) (w_in w')) written
                  /\ (no_short (d_plan (w_in w)) ->
                      consumed (w_in w) (w_in w') = rest (w_in w))
        | Err e => (exists q ct, prefix_of q (rest (w_in w))
                      /\ is_ciphertext E a key nonce aad BLOCK_SIZE q ct
                      /\ prefix_of written ct)
                   /\ (e = SRead -> d_plan (w_in w) <> [])
                   /\ (e = SWrite \/ e = SFlush -> d_plan (w_out w) <> [])
        | _ => False
        end)
  /\ (forall w o w', decrypt_file E s aad w = (o, w') ->
     exists written, wrote (w_out w) (w_out w') written
     /\ match o with
        | Ok _ => is_plaintext E a key nonce aad BLOCK_SIZE
                    (consumed (w_in w) (w_in w')) written
                  /\ (no_short (d_plan (w_in w)) ->
                      consumed (w_in w) (w_in w') = rest (w_in w))
        | Err e => (exists q ms, prefix_of q (rest (w_in w))
                      /\ opened_blocks E a key nonce aad BLOCK_SIZE q ms
                      /\ prefix_of written (concat ms))
                   /\ (e = SRead -> d_plan (w_in w) <> [])
                   /\ (e = SWrite \/ e = SFlush -> d_plan (w_out w) <> [])
        | _ => False
        end).
Proof. exact io_faults_reported_holds. Qed.
Print Assumptions C16_io_faults_reported.

(** A writer that takes one byte, is interrupted, then fails. *)
Example C16_case :
  let r := encrypt_file_bs toy 4 ex_stream []
             (mkWorld (dev_of ex_text) (mkDev [] 0 [EvShort 1; EvInt; EvFail] [])
                (dev_of []) no_rng []) in
  fst r = Err SWrite /\ d_data (w_out (snd r)) = [x61].
Proof. vm_compute. split; reflexivity. Qed.
