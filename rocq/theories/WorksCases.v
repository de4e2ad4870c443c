(** Concrete runs of commands with nothing in the way. *)
From Coq Require Import List ZArith String.
From Verif Require Import Bytes Primitives Crypto FS FSSpec Cli Fixtures EraseCases CliCases DecryptSpec DecryptCases ToyEnv.
Import ListNotations.
Local Open Scope list_scope.

(** A file of version 1 in memory mode in place of [a], and its password. *)
Definition old_home : cli :=
  mkCli (mkSys (s_nodes home)
           (fun i => match i with
                     | 0 => old_file Old1 Aes256Gcm MemoryMode ex_text
                     | 1 => ex_pw
                     | _ => s_data home i
                     end) 10 ["home"%string] (abs ["tmp"%string]) [] [] noise [], []) [] [] [].
Definition from_a : list (string * list string) :=
  [("input", ["a"]); ("output", ["new"]); ("keyfile", ["k"])]%string.
Definition with_header : list (string * list string) :=
  [("input", ["a"]); ("output", ["new"]); ("header", ["h"]); ("keyfile", ["k"]); ("force", [""])]%string.
Definition back_with_header : list (string * list string) :=
  [("input", ["new"]); ("output", ["b"]); ("header", ["h"]); ("keyfile", ["k"])]%string.
