(** Byte strings.

    Rust's [u8] is [Byte.byte]; [Vec<u8>], [&[u8]] and [[u8; N]] are lists of
    bytes (array lengths are tracked by well-formedness predicates where they
    matter). *)
From Coq Require Import List NArith Lia Bool.
From Coq.Strings Require Export Byte.
Export ListNotations.

Definition bytes := list byte.

(** [vec![0u8; n]], [[0u8; n]] (used throughout, e.g.
    crates/volaris-crypto/src/header.rs lines 276, 529, 596). *)
Definition zeros (n : nat) : bytes := repeat x00 n.

(** [==] on byte slices/arrays (std; used e.g. in header.rs lines 261-307). *)
Fixpoint bytes_eqb (a b : bytes) : bool :=
  match a, b with
  | [], [] => true
  | x :: a', y :: b' => Byte.eqb x y && bytes_eqb a' b'
  | _, _ => false
  end.

(** [header_bytes.into_iter().all(|b| b == 0)]
    (crates/volaris-tools/src/decrypt.rs line 82,
    crates/volaris-tools/src/header/restore.rs). *)
Definition all_zero (l : bytes) : bool := forallb (fun x => Byte.eqb x x00) l.

(** [as u8] truncation of a number. *)
Definition byte_of_N (n : N) : byte :=
  match Byte.of_N (n mod 256) with Some b => b | None => x00 end.

(** [u32::to_le_bytes] (aead crate, [StreamLE31::aead_nonce], reached from
    crates/volaris-crypto/src/stream.rs lines 136-159). *)
Definition le32 (n : N) : bytes :=
  [ byte_of_N n; byte_of_N (n / 256); byte_of_N (n / 65536);
    byte_of_N (n / 16777216) ].
