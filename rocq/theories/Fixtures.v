(** Small concrete values for the cases beside the theorems. *)
From Coq Require Import List Arith NArith ZArith.
From Verif Require Import Bytes Outcome IO Primitives Crypto Header Stream EncDec.
Local Open Scope nat_scope.

Definition no_rng : rng := fun _ => x00.
(** Reader holding [i], empty writer, no other device. *)
Definition io_world (i : bytes) : world :=
  mkWorld (dev_of i) (dev_of []) (dev_of []) no_rng [].

Definition ex_key : bytes := repeat x07 32.
Definition ex_nonce : bytes := [x01; x02; x03; x04; x05; x06; x07; x08].
Definition ex_stream : stream := mkStream Aes256Gcm ex_key ex_nonce 0.
Definition ex_text : bytes := [x61; x62; x63; x64; x65; x66; x67; x68; x69].

Definition written_by {E A} (r : outcome E A * world) : option bytes :=
  match r with (Ok _, w) => Some (d_data (w_out w)) | _ => None end.

(** A generator with recognisable output. *)
Definition ex_rng : rng := fun n =>
  match Byte.of_N (N.of_nat n mod 251 + 3) with Some b => b | None => x00 end.
Definition ex_pw : bytes := [x70; x77].
Definition ex_req (v : header_version) (h : hashing_algorithm) : enc_request :=
  mkEncReq false ex_pw (mkHT v Aes256Gcm StreamMode) h.
(** Reader holding [i] (its cursor somewhere), writer holding [o]. *)
Definition file_world (i o : bytes) : world :=
  mkWorld (mkDev i 3 [] []) (dev_of o) (dev_of []) ex_rng [].
