(** Vocabulary for the properties of the command line: how it may be written and
    what it means. *)
From Coq Require Import List Arith Ascii String Bool.
From Verif Require Import Bytes Cli CliSpec.
Import ListNotations.
Local Open Scope list_scope.

(** ** The options *)

(** An option: the name the program uses, the name on the command line, the letter
    for short, and whether the value has to follow an equals sign. *)
Record named := mkNamed { n_id : string; n_name : string; n_letter : option ascii; n_equals : bool }.

(** The subcommands that have it. *)
Definition interface : list (named * list command) :=
  let files := [CmdEncrypt; CmdDecrypt; CmdPack; CmdUnpack] in
  let making := [CmdEncrypt; CmdPack] in
  [ (mkNamed "keyfile" "keyfile" (Some "k"%char) false, files);
    (mkNamed "header" "header" None false, files);
    (mkNamed "hash" "hash" (Some "H"%char) false, files);
    (mkNamed "force" "force" (Some "f"%char) false, CmdErase :: files);
    (mkNamed "erase" "erase" None true, [CmdEncrypt; CmdDecrypt; CmdUnpack]);
    (mkNamed "erase" "erase" None false, [CmdPack]);
    (mkNamed "passes" "passes" None true, [CmdErase]);
    (mkNamed "autogenerate" "auto" None true, making);
    (mkNamed "argon" "argon" None false, making);
    (mkNamed "aes" "aes" None false, making);
    (mkNamed "verbose" "verbose" (Some "v"%char) false, [CmdPack; CmdUnpack]);
    (mkNamed "zstd" "zstd" (Some "z"%char) false, [CmdPack]);
    (mkNamed "recursive" "recursive" (Some "r"%char) false, [CmdPack]) ]%string.
Definition offers (c : command) (o : named) : Prop :=
  exists cs, In (o, cs) interface /\ In c cs.

(** ** Words *)

Definition hyphen (s : string) : Prop := exists r, s = String "-" r.
(** The word can stand for a value by itself. *)
Definition plain (s : string) : Prop := s = "-"%string \/ ~ hyphen s.
(** The word looks like an option. *)
Definition option_like (s : string) : Prop := ~ plain s /\ s <> "--"%string.

(** The ways to give an option a value. *)
Inductive spelled (o : named) (v : string) : list string -> Prop :=
| sp_long_equals : spelled o v ["--" ++ n_name o ++ "=" ++ v]%string
| sp_long : n_equals o = false -> plain v -> spelled o v ["--" ++ n_name o; v]%string
| sp_short_equals : forall a, n_letter o = Some a -> spelled o v ["-" ++ String a ("=" ++ v)]%string
| sp_short_joined : forall a b r, n_letter o = Some a -> n_equals o = false -> v = String b r -> b <> "="%char ->
    spelled o v ["-" ++ String a v]%string
| sp_short : forall a, n_letter o = Some a -> n_equals o = false -> plain v ->
    spelled o v ["-" ++ String a ""; v]%string.

(** ** The words after the subcommand *)

(** The words [ws] give the options [os], with values, and the operands [vs].
    Everything after [--] is an operand.  In [pack] the last operand is recognised
    by what follows it: an option or the end. *)
Inductive line_is (c : command) : list string -> list (named * string) -> list string -> Prop :=
| li_end : line_is c [] [] []
| li_option : forall o v ws r os vs, offers c o -> spelled o v ws -> line_is c r os vs ->
    line_is c (ws ++ r) ((o, v) :: os) vs
| li_operand : forall v r os vs, plain v ->
    (c = CmdPack -> (vs = [] <-> (r = [] \/ exists w r', r = w :: r' /\ option_like w))) ->
    line_is c r os vs -> line_is c (v :: r) os (v :: vs)
| li_rest : forall vs, (c = CmdPack -> Forall (fun w => ~ option_like w) (tl vs)) ->
    line_is c ("--"%string :: vs) [] vs.

(** What the operands are. *)
Definition operands (c : command) (vs : list string) (g : string -> list string) : Prop :=
  match c with
  | CmdEncrypt | CmdDecrypt | CmdUnpack =>
      exists i o, vs = [i; o] /\ g "input"%string = [i] /\ g "output"%string = [o]
  | CmdErase => exists i, vs = [i] /\ g "input"%string = [i] /\ g "output"%string = []
  | CmdHash => vs <> [] /\ g "input"%string = vs /\ g "output"%string = []
  | CmdPack => exists ins o, ins <> [] /\ vs = ins ++ [o] /\ g "input"%string = ins /\ g "output"%string = [o]
  end.
Definition as_text (s : string) : Prop := is_text (list_byte_of_string s).

(** The words after the subcommand [c] say [g]. *)
Definition says (c : command) (ws : list string) (g : string -> list string) : Prop :=
  exists os vs, line_is c ws os vs
    /\ NoDup (map (fun x => n_id (fst x)) os)
    /\ Forall as_text (map snd os ++ vs)
    /\ (forall o v, In (o, v) os -> g (n_id o) = [v])
    /\ (forall id, id <> "input"%string -> id <> "output"%string ->
          (forall o v, In (o, v) os -> n_id o <> id) -> g id = [])
    /\ operands c vs g
    /\ ~ (g "autogenerate"%string <> [] /\ g "keyfile"%string <> []).

(** The names of the subcommands. *)
Definition command_words : list (command * list string) :=
  [(CmdEncrypt, ["encrypt"; "-e"]); (CmdDecrypt, ["decrypt"; "-d"]); (CmdErase, ["erase"]);
   (CmdHash, ["hash"]); (CmdPack, ["pack"; "-p"]); (CmdUnpack, ["unpack"; "-u"])]%string.
Definition called (c : command) (w : string) : Prop :=
  exists l, In (c, l) command_words /\ In w l.

(** The options that need no value: those which cli.rs gives no value name. *)
Definition flags : list string :=
  ["hash"; "argon"; "force"; "aes"; "verbose"; "zstd"; "recursive"]%string.
Definition flag_of (c : command) (o : named) : Prop :=
  offers c o /\ (In (n_id o) flags \/ (c = CmdPack /\ n_id o = "erase"%string)).
(** A flag by itself, as one would write it. *)
Inductive bare (o : named) : string -> Prop :=
| bare_long : bare o ("--" ++ n_name o)%string
| bare_short : forall a, n_letter o = Some a -> bare o ("-" ++ String a "")%string.
(** Two requests that differ in the values of flags only. *)
Definition same_request (c : command) (g g' : string -> list string) : Prop :=
  forall id, if existsb (String.eqb id) (match c with CmdPack => "erase"%string :: flags | _ => flags end)
             then (g id = [] <-> g' id = []) else g id = g' id.

(** The last thing printed is a question. *)
Definition asked_last (c : Cli.cli) : Prop := exists ns q, c_out c = ns ++ [NAsk q].
