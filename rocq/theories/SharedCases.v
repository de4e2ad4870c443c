(** Examples with one file open twice. *)
From Coq Require Import List Arith NArith ZArith String.
From Verif Require Import Bytes Outcome IO Primitives Crypto Header EncDec FS Archive Cli Shared.
From Verif Require Import ToyEnv Fixtures SharedSpec CliSpec CliCases EraseCases.
Import ListNotations.
Local Open Scope string_scope.
Local Open Scope nat_scope.

Definition at_file (i : nat) : handle := mkHandle (abs []) i 0 [].
(** File 0 holds a text, file 1 is empty, file 2 too. *)
Definition three : asys :=
  (mkSys [] (fun i => nth i [ex_text] []) 3 [] (abs []) [] [] ex_rng [], []).
Definition one : asys := (mkSys [] (fun _ => []) 1 [] (abs []) [] [] ex_rng [], []).

Definition with_force (h : option string) : crypto_params :=
  mkCryptoParams false Force None (Keyfile "k") h (Blake3Balloon 5).

(** "volaris encrypt -f -k k a ./a", then "decrypt -f -k k a out". *)
Definition onto_itself : outcome cli_error unit * cli :=
  encrypt_stream_by (encrypt_lib (ce_E V0)) V0 "a" "./a" (with_force None) Aes256Gcm (start [] []).
Definition and_back : outcome cli_error unit * cli :=
  decrypt_stream V0 "a" "out" (with_force None) (snd onto_itself).
(** ... with the input as the header file, and with a header over the output. *)
Definition header_there : outcome cli_error unit * cli :=
  encrypt_stream_by (encrypt_lib (ce_E V0)) V0 "a" "new" (with_force (Some "./a")) Aes256Gcm (start [] []).
Definition header_below : outcome cli_error unit * cli :=
  encrypt_stream_by (encrypt_lib (ce_E V0)) V0 "a" "new" (with_force (Some "./new")) Aes256Gcm (start [] []).
Definition decrypted_onto_itself : outcome cli_error unit * cli :=
  decrypt_stream_by (decrypt_lib (ce_E V0)) V0 "a" "./a" (with_force None) (start [] []).
