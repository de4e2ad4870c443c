(** crates/volaris-crypto/src/primitives.rs, and the state shared by the
    functions of volaris-tools. *)
From Coq Require Import List Arith NArith.
From Verif Require Import Bytes Outcome IO.

(** primitives.rs line 9.  The number is kept in binary; it is only ever
    computed with symbolically. *)
Definition BLOCK_SIZE : nat := N.to_nat 1048576.
(** primitives.rs line 12. *)
Definition SALT_LEN : nat := 16.
(** primitives.rs line 14. *)
Definition MASTER_KEY_LEN : nat := 32.
(** primitives.rs line 15. *)
Definition ENCRYPTED_MASTER_KEY_LEN : nat := 48.

(** primitives.rs lines 20-24. *)
Inductive algorithm := Aes256Gcm | XChaCha20Poly1305 | DeoxysII256.

(** primitives.rs lines 47-50. *)
Inductive mode := MemoryMode | StreamMode.

(** primitives.rs lines 86-98. *)
Definition get_nonce_len (a : algorithm) (m : mode) : nat :=
  let nonce_len := match a with
                   | Aes256Gcm => 12
                   | XChaCha20Poly1305 => 24
                   | DeoxysII256 => 15
                   end in
  match m with StreamMode => nonce_len - 4 | MemoryMode => nonce_len end.

(** The random number generator: an arbitrary infinite byte stream, consumed
    from the front ([ThreadRng::default().fill_bytes], primitives.rs lines 76,
    116, 134). *)
Definition rng := nat -> byte.

(** One successful AEAD invocation. *)
Record call := mkCall {
  c_alg : algorithm; c_key : bytes; c_nonce : bytes; c_aad : bytes;
  c_msg : bytes;  (* plaintext *)
  c_ct  : bytes   (* ciphertext and tag *)
}.

(** Ghost record of the AEAD invocations a run makes: what was sealed and what
    was accepted on opening.  It is not program state; it exists so that
    theorems can talk about the calls made. *)
Inductive cev := Sealed (c : call) | Opened (c : call).
Definition trace := list cev.

(** The mutable state the tools work on: their [&RefCell<R>]/[&RefCell<W>]
    arguments (input or handle, output, detached header), the RNG, and the
    ghost trace. *)
Record world := mkWorld {
  w_in  : dev;
  w_out : dev;
  w_hdr : dev;
  w_rng : rng;
  w_tr  : trace
}.

Definition on_in {E A} (m : M dev E A) : M world E A :=
  zoom w_in (fun d w => mkWorld d (w_out w) (w_hdr w) (w_rng w) (w_tr w)) m.
Definition on_out {E A} (m : M dev E A) : M world E A :=
  zoom w_out (fun d w => mkWorld (w_in w) d (w_hdr w) (w_rng w) (w_tr w)) m.
Definition on_hdr {E A} (m : M dev E A) : M world E A :=
  zoom w_hdr (fun d w => mkWorld (w_in w) (w_out w) d (w_rng w) (w_tr w)) m.
Definition on_tr {E A} (m : M trace E A) : M world E A :=
  zoom w_tr (fun t w => mkWorld (w_in w) (w_out w) (w_hdr w) (w_rng w) t) m.

(** [fill_bytes] on a buffer of [n] bytes (rand; primitives.rs lines 76, 116,
    134). *)
Definition fill_bytes {E} (n : nat) : M world E bytes := fun w =>
  (Ok (map (w_rng w) (seq 0 n)),
   mkWorld (w_in w) (w_out w) (w_hdr w) (fun i => w_rng w (n + i)) (w_tr w)).

(** primitives.rs lines 73-78. *)
Definition gen_nonce {E} (a : algorithm) (m : mode) : M world E bytes :=
  fill_bytes (get_nonce_len a m).
(** primitives.rs lines 114-118. *)
Definition gen_master_key {E} : M world E bytes := fill_bytes MASTER_KEY_LEN.
(** primitives.rs lines 132-136. *)
Definition gen_salt {E} : M world E bytes := fill_bytes SALT_LEN.
