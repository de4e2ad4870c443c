(** Vocabulary for two commands one after the other. *)
From Coq Require Import List String.
From Verif Require Import Bytes Outcome KeyModel FS FSSpec Cli CliSpec.
Import ListNotations.
Local Open Scope list_scope.

(** Both commands take the key [raw]: from the same file, which is not one of the two
    that are written or erased; from the environment; or the first draws a passphrase
    and at the second what it drew is typed. *)
Inductive same_key (V : cenv) (g1 g2 : string -> list string) (s : sys) (typed : list (option bytes)) (i : nat) (output : string) (raw : bytes)
  : Prop :=
| sk_file : forall key j, given g1 "keyfile" key -> given g2 "keyfile" key -> key <> "-"%string ->
    stat s (os_path key) = Some (NFile j) -> j <> i -> stat s (os_path output) <> Some (NFile j) ->
    s_data s j = raw -> raw <> [] -> same_key V g1 g2 s typed i output raw
| sk_env : not_given g1 "keyfile" -> not_given g2 "keyfile" -> ce_key V = Some raw -> raw <> [] ->
    same_key V g1 g2 s typed i output raw
| sk_phrase : forall n phrase rest, key_source V CmdEncrypt g1 (Generate n) ->
    key_source V CmdDecrypt g2 User ->
    generate_passphrase (ce_words V) (ce_draw V) n = Ok phrase -> phrase <> EmptyString ->
    raw = list_byte_of_string phrase -> typed = Some raw :: rest ->
    same_key V g1 g2 s typed i output raw.

(** What was there before is there after, but for the place [q], the file [i] and what
    the path [p] names. *)
Definition spared (s s' : sys) (q : cpath) (i : nat) (p : path) : Prop :=
  forall r x, at_place s r = Some x -> r <> q -> resolve false s p <> Some r ->
    (forall j, lookup (s_nodes s) r = Some (NFile j) -> j <> i /\ stat s p <> Some (NFile j)) ->
    at_place s' r = Some x.
