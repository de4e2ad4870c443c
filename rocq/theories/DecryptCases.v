(** Files of old versions for the examples. *)
From Coq Require Import List Arith NArith.
From Verif Require Import Bytes Primitives Crypto Header ToyEnv Fixtures DecryptSpec.
Import ListNotations.
Local Open Scope nat_scope.

(** An old file with the toy functions, its body in one piece or in one block. *)
Definition old_file (v : old_version) (a : algorithm) (m : mode) (text : bytes) : bytes :=
  let salt := map byte_of_N [1; 2; 3; 4; 5; 6; 7; 8; 9; 10; 11; 12; 13; 14; 15; 16]%N in
  let nonce := repeat x07 (nonce_size a m) in
  let u1 := repeat x01 16 in let u2 := repeat x02 (26 - nonce_size a m) in
  let hdr := old_tag v a m ++ salt ++ match v with Old2 => nonce ++ u2 ++ u1 | _ => u1 ++ nonce ++ u2 end in
  let full := match m with MemoryMode => nonce | StreamMode => nonce ++ [x00; x00; x00; x80] end in
  match old_key toy v ex_pw salt with
  | Some key => hdr ++ match aead_enc toy a key full (old_aad v hdr) text with Some c => c | None => [] end
  | None => []
  end.
