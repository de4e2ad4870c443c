(** The concrete runs of PropertiesPrint. *)
From Coq Require Import List Arith NArith ZArith Ascii String Bool Lia.
From Verif Require Import Bytes Outcome IO Primitives Hash FS Archive Cli.
From Verif Require Import EraseCases CliSpec CliCases PrintSpec.
Import ListNotations.
Local Open Scope list_scope.

(** Everything that encrypt asks and shows: the words, the output and the header exist. *)
Definition talkative : list (string * list string) :=
  [("input", ["a"]); ("output", ["out"]); ("header", ["h"]); ("hash", [""]); ("autogenerate", ["2"]);
   ("erase", ["x"])]%string.
Definition talked : cli := after V0 CmdEncrypt talkative (start (B "maybe
y
Y
") []).
Lemma talks : matches_ok (mkMatches (args_of CmdEncrypt) (args talkative))
  /\ outcome_of V0 CmdEncrypt talkative (start (B "maybe
y
Y
") []) = Ok tt
  /\ exists h, c_out talked
  = [NWarn; NAsk "out already exists, would you like to overwrite?"; NWarn;
     NAsk "out already exists, would you like to overwrite?"; NPhrase "beta-beta";
     NAsk "h already exists, would you like to overwrite?"; NHash "out" h].
Proof.
  split; [apply args_ok; vm_compute; reflexivity|]. split; [vm_compute; reflexivity|].
  eexists. vm_compute. reflexivity.
Qed.

(** With a key file, the key, the content and the hash of the content may not be shown. *)
Definition quiet_args : list (string * list string) :=
  [("input", ["a"]); ("output", ["out"]); ("keyfile", ["k"]); ("hash", [""])]%string.
Lemma not_allowed : forall s,
  ~ may_print V0 CmdEncrypt (args quiet_args) (NPhrase s)
  /\ ~ may_print V0 CmdEncrypt (args quiet_args) (NLine s)
  /\ ~ may_print V0 CmdEncrypt (args quiet_args) (NHash "a" s)
  /\ ~ may_print V0 CmdEncrypt (args quiet_args) (NAsk "key")
  /\ ~ may_print V0 CmdDecrypt (args quiet_args) (NHash "out" s).
Proof.
  intros s. repeat split; intros H; inversion H; subst.
  - match goal with K : key_source _ _ _ _ |- _ => inversion K; discriminate end.
  - match goal with K : hash_shown _ _ _ |- _ => destruct K as [_ [r K]]; discriminate K end.
  - match goal with K : given _ "output" _ |- _ => destruct K as [r K]; injection K as <- _ end. discriminate.
  - match goal with K : given _ "header" _ |- _ => destruct K as [r K]; discriminate K end.
  - match goal with K : hash_shown _ _ _ |- _ => destruct K as [_ [r K]]; discriminate K end.
Qed.
