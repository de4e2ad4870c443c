(** crates/volaris-tools/src/{hash,hasher,utils}.rs *)
From Coq Require Import List Arith NArith Ascii String.
From Verif Require Import Bytes Outcome IO Primitives.
Import ListNotations.
Local Open Scope nat_scope.
Local Open Scope list_scope.

(** hash.rs lines 13-16 *)
Inductive hash_error := HashResetCursorPosition | HashReadData.

(** The trait [Hasher] (hasher.rs lines 1-4). *)
Record hasher := mkHasher {
  hr_state : Type;
  hr_write : bytes -> hr_state -> hr_state;
  hr_finish : hr_state -> string
}.

(** hash.rs lines 41-51.  Every iteration but the last one reads a full buffer,
    so the loop ends within one iteration more than there are bytes left
    (proved). *)
Fixpoint hash_loop (H : hasher) (fuel bs : nat) (h : hr_state H)
  : M dev hash_error (hr_state H) :=
  match fuel with
  | O => diverge
  | S fuel' =>
      got <- map_err (fun _ => HashReadData) (dev_read bs) ;;
      let h' := hr_write H got h in
      if List.length got =? bs then hash_loop H fuel' bs h' else ret h'
  end.

(** hash.rs lines 33-54 *)
Definition hash_execute_bs (H : hasher) (bs : nat) (h : hr_state H)
  : M dev hash_error string :=
  map_err (fun _ => HashResetCursorPosition) dev_rewind ;;
  fun d => (h' <- hash_loop H (S (List.length (d_data d))) bs h ;;
            ret (hr_finish H h')) d.

Definition hash_execute (H : hasher) := hash_execute_bs H BLOCK_SIZE.

(** [{:x}] on a [u8] (std [fmt::LowerHex]): lowercase, no leading zero. *)
Definition hex_digit (n : N) : ascii :=
  ascii_of_N (if (n <? 10)%N then 48 + n else 87 + n).
Definition lower_hex (b : byte) : string :=
  let n := Byte.to_N b in
  if (n <? 16)%N then String (hex_digit n) EmptyString
  else String (hex_digit (n / 16)) (String (hex_digit (n mod 16)) EmptyString).
(** Width 2, filled with ['0'] ([{:02x}]). *)
Definition pad2 (s : string) : string :=
  match String.length s with
  | 0 => String.append "00" s
  | 1 => String.append "0" s
  | _ => s
  end.

(** utils.rs lines 38-44 *)
Fixpoint hex_encode_loop (l : bytes) (result : string) : string :=
  match l with
  | [] => result
  | b :: l' => hex_encode_loop l' (String.append result (pad2 (lower_hex b)))
  end.
Definition hex_encode (l : bytes) : string := hex_encode_loop l EmptyString.

(** hasher.rs lines 6-26.  BLAKE3's incremental interface is modelled as
    hashing the concatenation of the updates; [blake3] is an arbitrary function.
    [to_hex] of the blake3 crate prints lowercase hexadecimal digits. *)
Definition Blake3Hasher (blake3 : bytes -> bytes) : hasher :=
  mkHasher bytes (fun input st => st ++ input) (fun st => hex_encode (blake3 st)).
