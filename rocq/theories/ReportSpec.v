(** Sizes of encrypted files and the hashes shown. *)
From Coq Require Import List NArith String.
From Verif Require Import Bytes Hash Cli.
Import ListNotations.
Local Open Scope list_scope.

(** The hashes among what is printed. *)
Fixpoint hashes_in (ns : list note) : list (string * string) :=
  match ns with
  | NHash f h :: r => (f, h) :: hashes_in r
  | _ :: r => hashes_in r
  | [] => []
  end.

(** A body of blocks of 1 MiB, each with a tag of 16 bytes, the last one shorter than a
    whole block; before it, unless it is in a file of its own, a header of 416 bytes. *)
Definition body_size (n : N) : N := (n + 16 * (n / 1048576 + 1))%N.
Definition encrypted_size (detached : bool) (n : N) : N :=
  if detached then body_size n else (416 + body_size n)%N.
