(** The property of what is printed. *)
From Coq Require Import List Arith ZArith String.
From Verif Require Import Bytes Outcome Hash Cli EraseCases CliSpec CliCases PrintSpec PrintProofs PrintCases.
Import ListNotations.
Local Open Scope list_scope.

(** C100: whatever the result, a command prints only warnings of fixed text, questions
    about files named on the command line, hashes of encrypted files or of the files to
    hash, and a passphrase that it has made itself.  No key that it has been given, no
    content of a file and no hash of a file to be encrypted is printed. *)
Theorem C100_only_allowed : forall V cmd g c o c', matches_ok (mkMatches (args_of cmd) g) ->
  run_command V cmd g c = (o, c') ->
  exists ns, printed_between c c' ns /\ Forall (may_print V cmd g) ns.
Proof. exact only_allowed. Qed.
Print Assumptions C100_only_allowed.

(** C100: at most one passphrase is printed; by a command that succeeds exactly one if
    the key is generated, and none otherwise. *)
Theorem C100_phrase_once : forall V cmd g c o c' ns, matches_ok (mkMatches (args_of cmd) g) ->
  run_command V cmd g c = (o, c') -> printed_between c c' ns ->
  phrases ns <= 1
  /\ (o = Ok tt -> (phrases ns = 1 <-> exists n, key_source V cmd g (Generate n) /\ In cmd [CmdEncrypt; CmdPack])).
Proof. exact phrase_once. Qed.
Print Assumptions C100_phrase_once.

Example C100_case : matches_ok (mkMatches (args_of CmdEncrypt) (args talkative))
  /\ outcome_of V0 CmdEncrypt talkative (start (B "maybe
y
Y
") []) = Ok tt
  /\ exists h, c_out talked
  = [NWarn; NAsk "out already exists, would you like to overwrite?"; NWarn;
     NAsk "out already exists, would you like to overwrite?"; NPhrase "beta-beta";
     NAsk "h already exists, would you like to overwrite?"; NHash "out" h].
Proof. exact talks. Qed.

Example C100_not_allowed : forall s,
  ~ may_print V0 CmdEncrypt (args quiet_args) (NPhrase s)
  /\ ~ may_print V0 CmdEncrypt (args quiet_args) (NLine s)
  /\ ~ may_print V0 CmdEncrypt (args quiet_args) (NHash "a" s)
  /\ ~ may_print V0 CmdEncrypt (args quiet_args) (NAsk "key")
  /\ ~ may_print V0 CmdDecrypt (args quiet_args) (NHash "out" s).
Proof. exact not_allowed. Qed.
