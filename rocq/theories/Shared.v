(** Encrypting and decrypting when one file is open more than once.

    encrypt.rs (tools) lines 57-150, decrypt.rs (tools) lines 56-150 and stream.rs
    lines 184-238, 352-405 again, over handles into the file system: every read
    and every write goes to the content of the file the handle was opened on, so
    two handles on one file see each other's writes, each with a cursor of its
    own ([std::fs::File] values from separate calls of [open]).

    The programs are written once, over [ports]; with [world_ports] they are
    those of [EncDec] (C106). *)
From Coq Require Import List Arith NArith ZArith.
From Verif Require Import Bytes Outcome IO Primitives Crypto Header Stream KeyModel EncDec.
From Verif Require Import FS Archive.
Local Open Scope nat_scope.

(** Ways to the reader, the writer, the detached header, the trace and the random
    numbers of a state [W]; [p_size]: how long the reader's file is now, which bounds
    the loops. *)
Record ports (W : Type) := mkPorts {
  p_in : forall {E A}, M dev E A -> M W E A;
  p_out : forall {E A}, M dev E A -> M W E A;
  p_hdr : forall {E A}, M dev E A -> M W E A;
  p_tr : forall {E A}, M trace E A -> M W E A;
  p_rng : forall {E A}, M rng E A -> M W E A;
  p_size : W -> nat
}.
Arguments p_in {W} p {E A} m.
Arguments p_out {W} p {E A} m.
Arguments p_hdr {W} p {E A} m.
Arguments p_tr {W} p {E A} m.
Arguments p_rng {W} p {E A} m.
Arguments p_size {W} p w.

(** primitives.rs lines 73-78, 114-118, 132-136 *)
Definition draw {E} (n : nat) : M rng E bytes := fun g =>
  (Ok (map g (seq 0 n)), fun i => g (n + i)).

(** stream.rs lines 194-230 *)
Fixpoint encrypt_loop_p {W} (P : ports W) (E : env) (bs fuel : nat) (s : stream) (aad : bytes)
  : M W stream_error unit :=
  match fuel with
  | O => diverge
  | S fuel' =>
      buf <- map_err (fun _ => SRead) (p_in P (dev_read bs)) ;;
      if length buf =? bs then
        cs <- map_err (fun _ => SCrypt) (p_tr P (encrypt_next E s aad buf)) ;;
        map_err (fun _ => SWrite) (p_out P (dev_write_all (fst cs))) ;;
        encrypt_loop_p P E bs fuel' (snd cs) aad
      else
        ct <- map_err (fun _ => SCrypt) (p_tr P (encrypt_last E s aad buf)) ;;
        map_err (fun _ => SWrite) (p_out P (dev_write_all ct))
  end.

(** stream.rs lines 184-238 *)
Definition encrypt_file_p {W} (P : ports W) (E : env) (bs : nat) (s : stream) (aad : bytes)
  : M W stream_error unit := fun w =>
  (encrypt_loop_p P E bs (S (p_size P w)) s aad ;;
   map_err (fun _ => SFlush) (p_out P dev_flush)) w.

(** stream.rs lines 362-397 *)
Fixpoint decrypt_loop_p {W} (P : ports W) (E : env) (bs fuel : nat) (s : stream) (aad : bytes)
  : M W stream_error unit :=
  match fuel with
  | O => diverge
  | S fuel' =>
      buf <- map_err (fun _ => SRead) (p_in P (dev_read (bs + 16))) ;;
      if length buf =? bs + 16 then
        ms <- map_err (fun _ => SCrypt) (p_tr P (decrypt_next E s aad buf)) ;;
        map_err (fun _ => SWrite) (p_out P (dev_write_all (fst ms))) ;;
        decrypt_loop_p P E bs fuel' (snd ms) aad
      else
        m <- map_err (fun _ => SCrypt) (p_tr P (decrypt_last E s aad buf)) ;;
        map_err (fun _ => SWrite) (p_out P (dev_write_all m))
  end.

(** stream.rs lines 352-405 *)
Definition decrypt_file_p {W} (P : ports W) (E : env) (bs : nat) (s : stream) (aad : bytes)
  : M W stream_error unit := fun w =>
  (decrypt_loop_p P E bs (S (p_size P w)) s aad ;;
   map_err (fun _ => SFlush) (p_out P dev_flush)) w.

(** encrypt.rs (tools) lines 57-113: the keys and the header *)
Definition encrypt_keys_p {W} (P : ports W) (E : env) (req : enc_request)
  : M W enc_error (stream * header) :=
  let t := er_header_type req in
  salt <- p_rng P (draw SALT_LEN) ;;
  key <- map_err (fun _ => EncHashKey)
           (lift (hash E (er_hashing_algorithm req) (er_raw_key req) salt)) ;;
  cipher <- map_err (fun _ => EncInitializeCiphers)
              (lift (ciphers_initialize key (ht_algorithm t))) ;;
  master_key <- p_rng P (draw MASTER_KEY_LEN) ;;
  mk_nonce <- p_rng P (draw (get_nonce_len (ht_algorithm t) MemoryMode)) ;;
  enc_key <- map_err (fun _ => EncEncryptMasterKey)
               (p_tr P (ciphers_encrypt E cipher mk_nonce [] master_key)) ;;
  let slot := mkSlot (er_hashing_algorithm req)
                (vec_to_arr ENCRYPTED_MASTER_KEY_LEN enc_key) mk_nonce salt in
  nonce <- p_rng P (draw (get_nonce_len (ht_algorithm t) (ht_mode t))) ;;
  streams <- map_err (fun _ => EncInitializeStreams)
               (lift (enc_stream_initialize master_key nonce (ht_algorithm t))) ;;
  ret (streams, mkHeader t nonce None (Some [slot])).

(** encrypt.rs (tools) lines 115-135: the header is written *)
Definition put_header_p {W} (P : ports W) (detached : bool) (h : header) : M W enc_error unit :=
  map_err (fun _ => EncResetCursorPosition) (p_out P dev_rewind) ;;
  if detached then
    map_err (fun _ => EncResetCursorPosition) (p_hdr P dev_rewind) ;;
    p_hdr P (write_header_to h)
  else p_out P (write_header_to h).

(** encrypt.rs (tools) lines 57-150 *)
Definition encrypt_execute_p {W} (P : ports W) (E : env) (bs : nat) (req : enc_request)
  : M W enc_error unit :=
  sh <- encrypt_keys_p P E req ;;
  put_header_p P (er_detached req) (snd sh) ;;
  aad <- map_err (fun _ => EncCreateAad) (lift (create_aad (snd sh))) ;;
  map_err (fun _ => EncResetCursorPosition) (p_in P dev_rewind) ;;
  map_err (fun _ => EncEncryptFile) (encrypt_file_p P E bs (fst sh) aad).

(** decrypt.rs (tools) lines 56-150 *)
Definition decrypt_execute_p {W} (P : ports W) (E : env) (bs : nat) (detached : bool)
  (raw_key : bytes) : M W dec_error unit :=
  ha <- (if detached then
           ha <- map_err (fun _ => DecDeserializeHeader) (p_hdr P deserialize) ;;
           p_in P (skip_empty_header (get_size (ht_version (h_type (fst ha))))) ;;
           ret ha
         else map_err (fun _ => DecDeserializeHeader) (p_in P deserialize)) ;;
  let '(h, aad) := ha in
  let a := ht_algorithm (h_type h) in
  match ht_mode (h_type h) with
  | MemoryMode =>
      data <- map_err (fun _ => DecReadEncryptedData) (p_in P dev_read_to_end) ;;
      mk <- map_err (fun _ => DecDecryptMasterKey)
              (p_tr P (decrypt_master_key E raw_key h)) ;;
      c <- map_err (fun _ => DecInitializeCiphers) (lift (ciphers_initialize mk a)) ;;
      m <- map_err (fun _ => DecDecryptData)
             (p_tr P (ciphers_decrypt E c (h_nonce h) aad data)) ;;
      map_err (fun _ => DecWriteData) (p_out P (dev_write_all m))
  | StreamMode =>
      mk <- map_err (fun _ => DecDecryptMasterKey)
              (p_tr P (decrypt_master_key E raw_key h)) ;;
      s <- map_err (fun _ => DecInitializeStreams)
             (lift (dec_stream_initialize mk (h_nonce h) a)) ;;
      map_err (fun _ => DecDecryptData) (decrypt_file_p P E bs s aad)
  end.

(** The devices of [world]. *)
Definition world_ports : ports world :=
  mkPorts world (@on_in) (@on_out) (@on_hdr) (@on_tr)
    (fun E A m => zoom w_rng (fun g w => mkWorld (w_in w) (w_out w) (w_hdr w) g (w_tr w)) m)
    (fun w => length (d_data (w_in w))).

(** Handles into the file system. *)
Record shared := mkShared {
  sh_in : handle; sh_out : handle; sh_hdr : option handle; sh_sys : sys; sh_tr : trace
}.

Definition at_in {E A} (m : M dev E A) : M shared E A := fun x =>
  let '(o, d) := m (handle_dev (sh_sys x) (sh_in x)) in
  (o, mkShared (move_handle d (sh_in x)) (sh_out x) (sh_hdr x)
               (put_handle d (sh_in x) (sh_sys x)) (sh_tr x)).
Definition at_out {E A} (m : M dev E A) : M shared E A := fun x =>
  let '(o, d) := m (handle_dev (sh_sys x) (sh_out x)) in
  (o, mkShared (sh_in x) (move_handle d (sh_out x)) (sh_hdr x)
               (put_handle d (sh_out x) (sh_sys x)) (sh_tr x)).
(** Without a header file (not reached: the flags below say so) nothing happens. *)
Definition at_hdr {E A} (m : M dev E A) : M shared E A := fun x =>
  match sh_hdr x with
  | Some h =>
      let '(o, d) := m (handle_dev (sh_sys x) h) in
      (o, mkShared (sh_in x) (sh_out x) (Some (move_handle d h))
                   (put_handle d h (sh_sys x)) (sh_tr x))
  | None => (fst (m no_dev), x)
  end.
Definition shared_ports : ports shared :=
  mkPorts shared (@at_in) (@at_out) (@at_hdr)
    (fun E A m => zoom sh_tr (fun t x => mkShared (sh_in x) (sh_out x) (sh_hdr x) (sh_sys x) t) m)
    (fun E A m => zoom (fun x => s_rng (sh_sys x))
       (fun g x => mkShared (sh_in x) (sh_out x) (sh_hdr x) (with_rng g (sh_sys x)) (sh_tr x)) m)
    (fun x => length (s_data (sh_sys x) (h_ino (sh_in x)))).

(** Run over open files, on one file or on several. *)
Definition run_shared {E A} (m : M shared E A) (hi ho : handle) (hh : option handle) (a : asys)
  : (outcome E A * (handle * handle)) * asys :=
  let '(o, x) := m (mkShared hi ho hh (fst a) (snd a)) in
  ((o, (sh_in x, sh_out x)), (sh_sys x, sh_tr x)).

(** encrypt.rs (tools) lines 57-150; [er_detached] of the request says whether there
    is a header file (volaris-cli, subcommands/encrypt.rs lines 52-72) *)
Definition encrypt_shared (E : env) (req : enc_request) : M shared enc_error unit :=
  encrypt_execute_p shared_ports E BLOCK_SIZE req.
(** decrypt.rs (tools) lines 56-150 *)
Definition decrypt_shared (E : env) (detached : bool) (raw_key : bytes)
  : M shared dec_error unit :=
  decrypt_execute_p shared_ports E BLOCK_SIZE detached raw_key.
