(** The concrete runs of PropertiesReport. *)
From Coq Require Import List Arith NArith ZArith Ascii String Bool Lia.
From Verif Require Import Bytes Outcome IO Primitives Hash FS Archive Cli.
From Verif Require Import EraseCases FSSpec CliSpec CliCases PrintSpec ReportSpec.
Import ListNotations.
Local Open Scope list_scope.

Definition enc_hash : list (string * list string) :=
  [("input", ["a"]); ("output", ["new"]); ("header", ["hn"]); ("keyfile", ["k"]); ("hash", [""])]%string.
Definition dec_hash : list (string * list string) :=
  [("input", ["new"]); ("output", ["a2"]); ("header", ["hn"]); ("keyfile", ["k"]); ("hash", [""])]%string.
Definition one : cli := after V0 CmdEncrypt enc_hash (start [] []).
Definition two : cli := after V0 CmdDecrypt dec_hash one.
Definition content_at (c : cli) (n : string) : option bytes :=
  match at_place (disk c) ["home"; n]%string with Some (SFile _ l) => Some l | _ => None end.

(** Six bytes and a tag; the hash (here the first four bytes) is shown both times. *)
Lemma sizes_and_hashes :
  (option_map (@List.length byte) (content_at one "new"), option_map (@List.length byte) (content_at one "hn"))
  = (Some 22, Some 416)
  /\ option_map (fun l => [("new"%string, hex_encode (firstn 4 l))]) (content_at one "new") = Some (hashes_in (c_out one))
  /\ (hashes_in (c_out two) = hashes_in (c_out one) ++ hashes_in (c_out one))
  /\ content_at two "a2" = Some (B "secret") /\ content_at two "new" = None.
Proof. vm_compute. repeat split; reflexivity. Qed.
Lemma some_sizes :
  map (encrypted_size false) [0; 1048575; 1048576; 1048577]%N = [432; 1049007; 1049024; 1049025]%N.
Proof. reflexivity. Qed.
