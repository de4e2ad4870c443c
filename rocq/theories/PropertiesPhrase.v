(** The properties of numbers on the command line and of generated passphrases. *)
From Coq Require Import List Arith NArith ZArith Ascii String Bool Lia.
From Verif Require Import Bytes Outcome IO Primitives Crypto Header Stream KeyModel EncDec.
From Verif Require Import Overwrite Hash FS Erase Archive Cli.
From Verif Require Import FSSpec ArchiveSpec CliSpec CliCases PhraseSpec PhraseProofs PhraseCases.
Import ListNotations.
Local Open Scope list_scope.

(** C89: the text of a number on the command line (words of a passphrase, passes of an
    erase) is read as the number that it is the decimal numeral of, if that fits in 32
    bits, and as none otherwise. *)
Theorem C89_numbers : forall s n, parse_i32 s = Some n <-> reads_as s n.
Proof. exact parse_exact. Qed.
Print Assumptions C89_numbers.

Example C89_numbers_case :
  reads_as "-2147483648" (-2147483648) /\ reads_as "+007" 7
  /\ (forall n, ~ reads_as "2147483648" n) /\ (forall n, ~ reads_as "7x" n)
  /\ (forall n, ~ reads_as "" n) /\ (forall n, ~ reads_as "+-1" n).
Proof. exact some_numbers. Qed.

(** C89: encrypt and pack with a generated passphrase change nothing on the disk, or show
    the passphrase: with any failures, whatever the result. *)
Theorem C89_phrase_shown : forall V cmd g c o c' n, In cmd [CmdEncrypt; CmdPack] ->
  g "input"%string <> [] -> g "output"%string <> [] -> key_source V cmd g (Generate n) ->
  run_command V cmd g c = (o, c') ->
  unwritten (disk c) (disk c')
  \/ exists s, generate_passphrase (ce_words V) (ce_draw V) n = Ok s /\ shown c c' s.
Proof. exact phrase_told_unwritten. Qed.
Print Assumptions C89_phrase_shown.

(** C89: if encrypt with a generated passphrase ends without error, the passphrase shown
    is the one that the file can be decrypted with. *)
Theorem C89_phrase_recovers : forall V g c c' n input output i,
  env_ok (ce_E V) -> no_faults (disk c) -> inodes_ok (disk c) ->
  given g "input" input -> given g "output" output ->
  stat (disk c) (os_path input) = Some (NFile i) ->
  (forall t, In t (write_targets g output) -> stat (disk c) t <> Some (NFile i)) ->
  (forall h, given g "header" h -> different (disk c) (os_path output) (os_path h)) ->
  key_source V CmdEncrypt g (Generate n) ->
  run_command V CmdEncrypt g c = (Ok tt, c') ->
  exists s, generate_passphrase (ce_words V) (ce_draw V) n = Ok s /\ shown c c' s
    /\ kept_encrypted V g output (disk c) (disk c') (list_byte_of_string s) (s_data (disk c) i).
Proof. exact phrase_recovers. Qed.
Print Assumptions C89_phrase_recovers.

(** [phrased]: after encrypting [a] to [new] with [--autogenerate 3]. *)
Example C89_case : exists c',
  run_command V0 CmdEncrypt (args three) (start [] []) = (Ok tt, phrased)
  /\ c_out phrased = [NPhrase "beta-beta-beta"]
  /\ at_place (disk phrased) ["home"; "a"]%string = None
  /\ run_command V0 CmdDecrypt (args unkeyed) (remembered "beta-beta-beta") = (Ok tt, c')
  /\ at_place (disk c') ["home"; "out"]%string = Some (SFile 2 (list_byte_of_string "secret")).
Proof. exact phrase_back. Qed.

Example C89_other : exists e c',
  run_command V0 CmdDecrypt (args unkeyed) (remembered "beta-beta-alpha") = (Err (CDecrypt e), c').
Proof. exact phrase_other. Qed.
