(** What a command may print. *)
From Coq Require Import List Arith ZArith String.
From Verif Require Import Bytes Hash Cli CliSpec.
Import ListNotations.
Local Open Scope list_scope.

(** The notes that [ns] adds are those printed between the two states. *)
Definition printed_between (c c' : cli) (ns : list note) : Prop := c_out c' = c_out c ++ ns.

(** The files whose hash is printed: with [hash] those given; otherwise, with [--hash],
    the encrypted file. *)
Definition hash_shown (cmd : command) (g : string -> list string) (f : string) : Prop :=
  match cmd with
  | CmdHash => In f (g "input"%string)
  | CmdEncrypt | CmdPack => g "hash"%string <> [] /\ given g "output" f
  | CmdDecrypt => g "hash"%string <> [] /\ given g "input" f
  | CmdErase | CmdUnpack => False
  end.

(** Warnings, of fixed text; the questions whether a file named on the command line may be
    overwritten and whether a directory may be erased, without [--force]; the hash of an
    encrypted file or of a file to hash; and a passphrase that the program makes itself. *)
Inductive may_print (V : cenv) (cmd : command) (g : string -> list string) : note -> Prop :=
| mp_warn : may_print V cmd g NWarn
| mp_output : forall f, In cmd [CmdEncrypt; CmdDecrypt; CmdPack] ->
    not_given g "force" -> given g "output" f ->
    may_print V cmd g (NAsk (f ++ " already exists, would you like to overwrite?"))
| mp_header : forall f, In cmd [CmdEncrypt; CmdPack] ->
    not_given g "force" -> given g "header" f ->
    may_print V cmd g (NAsk (f ++ " already exists, would you like to overwrite?"))
| mp_directory : In cmd [CmdEncrypt; CmdDecrypt; CmdErase; CmdPack] ->
    (cmd = CmdPack -> g "erase"%string <> []) -> not_given g "force" ->
    may_print V cmd g (NAsk "This is a directory, would you like to erase all files within it?")
| mp_hash : forall f l, hash_shown cmd g f ->
    may_print V cmd g (NHash f (hex_encode (ce_blake3 V l)))
| mp_phrase : forall n ws, key_source V cmd g (Generate n) ->
    List.length ws = Z.to_nat n -> incl ws (ce_words V) ->
    may_print V cmd g (NPhrase (String.concat "-" ws)).

Definition is_phrase (n : note) : bool := match n with NPhrase _ => true | _ => false end.
Definition phrases (ns : list note) : nat := List.length (filter is_phrase ns).
